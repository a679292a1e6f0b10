From Coq Require Import String Ascii List Bool Arith Lia.
From stdpp Require Import gmap strings.
From Verif Require Import Model.Py Model.Path Model.Contents Spec.PathSpec Spec.ContentsSpec Proof.PyFacts Proof.PathFacts Proof.ContentsFacts.
Import ListNotations.
Open Scope string_scope.

Section top.
  Context (sha1 : string -> string) (install : string) (t : node) (pkgs : list (list pathinfo)).
  Context (Pd : proper_dir install) (W : well_formed t) (X : all_explicit pkgs) (U : unambiguous install t pkgs).

  Lemma contents_exact i : exists d, gen_files_xml sha1 install t pkgs i = Ok d /\
    (forall key, is_Some (d !! key) <-> exists f, key = short f /\ belongs t pkgs i f).
  Proof.
    destruct (gen_files_spec sha1 install t Pd W pkgs X U i) as (d & E & R1 & R2). exists d. split; [exact E|]. intros key. split.
    - intros [info H]. destruct (R1 key info H) as (f & x & -> & B & _). now exists f.
    - intros (f & -> & B). now apply R2.
  Qed.
  Lemma belongs_good i f : belongs t pkgs i f -> List.Forall good_name f.
  Proof. intros (x & p & Pf & _). exact (produced_names t W f x Pf). Qed.
  Lemma in_exact i d f x : gen_files_xml sha1 install t pkgs i = Ok d -> produced t f x -> is_Some (d !! short f) <-> belongs t pkgs i f.
  Proof.
    intros E Pf. destruct (contents_exact i) as (d' & E' & C). rewrite E in E'. injection E' as <-. rewrite C. split.
    - intros (g & Eg & B). assert (f = g) as ->; [|exact B]. apply short_inj; [exact (produced_names t W f x Pf)|exact (belongs_good i g B)|exact Eg].
    - intros B. now exists f.
  Qed.
  Lemma types_exact i d key info : gen_files_xml sha1 install t pkgs i = Ok d -> d !! key = Some info ->
    exists f x p pi, key = short f /\ produced t f x /\ nearest pkgs i f p /\ first_entry pkgs i p pi /\
      gi_type info = pi_type pi /\ gi_permanent info = pi_permanent pi /\ fingerprint sha1 x (gi_hash info).
  Proof.
    intros E H. destruct (gen_files_spec sha1 install t Pd W pkgs X U i) as (d' & E' & R1 & _). rewrite E in E'. injection E' as <-.
    destruct (R1 key info H) as (f & x & -> & _ & Pf & p & pi & R). exists f, x, p, pi. split; [reflexivity|]. split; [exact Pf|]. exact R.
  Qed.

  Lemma one_package i j f : distinct_paths pkgs -> belongs t pkgs i f -> belongs t pkgs j f -> i = j.
  Proof.
    intros D (x & p & Pf & Np & Cp & Y) (y & q & Pg & Nq & Cq & Z).
    destruct (Nat.eq_dec i j) as [E|N]; [exact E|exfalso]. 
    assert (xy : x = y) by (destruct Pf as [A _], Pg as [B _]; exact (lies_fun _ _ _ _ W A B)). subst y.
    assert (Np' : p <> q). { intros ->. now apply N, (D i j q). }
    destruct (le_lt_dec (length p) (length q)) as [L|L].
    - pose proof (covers_compare p q f Cp Cq L) as C. destruct Y as [[-> _]|Y].
      + apply Np'. exact (covers_antisym _ _ C Cq).
      + apply Y. exists j, q, p. split; [congruence|]. now repeat (split; [assumption|]).
    - assert (C : covers q p) by (apply (covers_compare q p f Cq Cp); lia). destruct Z as [[-> _]|Z].
      + apply Np'. exact (covers_antisym _ _ Cp C).
      + apply Z. exists i, p, q. split; [congruence|]. now repeat (split; [assumption|]).
  Qed.
  Lemma nearest_gets i f x p : no_sandwich pkgs -> distinct_paths pkgs -> produced t f x -> nearest_of_all pkgs f p i -> belongs t pkgs i f.
  Proof.
    intros S D Pf (Np & Cp & M). exists x, p. split; [exact Pf|]. split; [exact Np|]. split; [exact Cp|]. right.
    intros (j & q & p' & Nj & Nq & Cq & Np' & C). apply Nj. symmetry. exact (S i j p' q p Np' Nq Np C (M j q Nq Cq)).
  Qed.

  Lemma longest (l : list (nat * list string)) (f : list string) : l <> [] -> (forall a, In a l -> covers (snd a) f) ->
    exists a, In a l /\ forall b, In b l -> covers (snd b) (snd a).
  Proof.
    induction l as [|a l IH]; [congruence|]. intros _ H. destruct l as [|b l].
    - exists a. split; [now left|]. intros c [<-|[]]. apply covers_refl.
    - destruct IH as (c & Ic & M); [discriminate|intros d Hd; apply H; now right|].
      destruct (le_lt_dec (length (snd a)) (length (snd c))) as [L|L].
      + exists c. split; [now right|]. intros d [<-|Hd]; [|now apply M]. apply (covers_compare _ _ f); [apply H; now left|apply H; now right|exact L].
      + assert (C : covers (snd c) (snd a)) by (apply (covers_compare _ _ f); [apply H; now right|apply H; now left|lia]).
        exists a. split; [now left|]. intros d [<-|Hd]; [apply covers_refl|]. exact (covers_trans _ _ _ (M d Hd) C).
  Qed.
  Definition all_paths_of : list (nat * list string) :=
    flat_map (fun i => map (fun pi => (i, names_of (pi_path pi))) (nth i pkgs [])) (seq 0 (length pkgs)).
  Lemma all_paths_iff i p : In (i, p) all_paths_of <-> names pkgs i p.
  Proof.
    unfold all_paths_of. rewrite in_flat_map. rewrite names_in. split.
    - intros (j & Hj & H). apply in_map_iff in H as (pi & E & I). injection E as -> <-. exists pi. split; [exact I|].
      apply in_nth in I. destruct (X i pi I) as [p Ep]. pose proof Ep as (_ & F & T & _). rewrite T, names_of_text by exact F. exact Ep.
    - intros (pi & I & Ep). exists i. split.
      + apply in_seq. split; [lia|]. cbn. destruct (le_lt_dec (length pkgs) i) as [L|L]; [|exact L]. rewrite nth_overflow in I by exact L. destruct I.
      + apply in_map_iff. exists pi. split; [|exact I]. pose proof Ep as (_ & F & T & _). now rewrite T, names_of_text.
  Qed.
  Lemma nearest_exists i p f : names pkgs i p -> covers p f -> exists j q, nearest_of_all pkgs f q j.
  Proof.
    intros N C. set (l := List.filter (fun a => prefix String.eqb (snd a) f) all_paths_of).
    assert (L : forall a, In a l <-> names pkgs (fst a) (snd a) /\ covers (snd a) f).
    { intros [j q]. unfold l. rewrite filter_In, all_paths_iff. cbn. rewrite (prefix_iff _ string_eqb_iff). reflexivity. }
    destruct (longest l f) as ([j q] & I & M).
    - intros K. assert (H : In (i, p) l) by (apply L; now split). rewrite K in H. destruct H.
    - intros a Ha. now apply L.
    - exists j, q. apply L in I as [Nj Cj]. split; [exact Nj|]. split; [exact Cj|]. intros k r Nk Ck. apply (M (k, r)). apply L. now split.
  Qed.

  Lemma exactly_one f x i p : distinct_paths pkgs -> no_sandwich pkgs -> produced t f x -> names pkgs i p -> covers p f ->
    exists j q, nearest_of_all pkgs f q j /\
      forall k, (exists d, gen_files_xml sha1 install t pkgs k = Ok d /\ is_Some (d !! short f)) <-> k = j.
  Proof.
    intros D S Pf N C. destruct (nearest_exists i p f N C) as (j & q & Near). exists j, q. split; [exact Near|]. pose proof (nearest_gets j f x q S D Pf Near) as B.
    intros k. split.
    - intros (d & E & H). apply (in_exact k d f x E Pf) in H. exact (one_package k j f D H B).
    - intros ->. destruct (contents_exact j) as (d & E & Cd). exists d. split; [exact E|]. apply Cd. now exists f.
  Qed.
End top.

Lemma no_such_package sha1 install t pkgs i : (length pkgs <= i)%nat -> gen_files_xml sha1 install t pkgs i = Ok ∅.
Proof. intros L. unfold gen_files_xml. rewrite nth_overflow by exact L. reflexivity. Qed.

(** ** Checking the hypotheses of concrete cases *)
Definition explicit_check (pi : pathinfo) : bool :=
  let p := names_of (pi_path pi) in
  negb (bool_decide (p = [])) && String.eqb (pi_path pi) (text p) && negb (has_magic (text p)).
Lemma names_of_good s : List.Forall good_name (names_of s).
Proof.
  unfold names_of. apply List.Forall_forall. intros n I. apply filter_In in I as [I N]. split.
  - intros ->. discriminate N.
  - pose proof (split_pieces_no_sep slash s) as F. rewrite List.Forall_forall in F. exact (F n I).
Qed.
Lemma explicit_check_ok pi : explicit_check pi = true -> explicit pi (names_of (pi_path pi)).
Proof.
  unfold explicit_check. rewrite !andb_true_iff, !negb_true_iff. intros [[N E] M]. split; [exact (bool_decide_eq_false_1 _ N)|].
  split; [apply names_of_good|]. apply String.eqb_eq in E. split; [exact E|]. unfold has_magic in M. rewrite !orb_false_iff in M. destruct M as [[M1 M2] M3].
  repeat split; intros K; apply char_in_iff in K; congruence.
Qed.
Definition paths_check (pkgs : list (list pathinfo)) : bool := forallb (forallb explicit_check) pkgs.
Lemma paths_check_ok pkgs : paths_check pkgs = true -> all_explicit pkgs.
Proof.
  unfold paths_check. rewrite forallb_forall. intros H i pi (l & E & I). exists (names_of (pi_path pi)). apply explicit_check_ok.
  apply nth_error_In in E. specialize (H l E). rewrite forallb_forall in H. now apply H.
Qed.

Fixpoint leaves (t : node) : list (list string) :=
  match t with
  | NDir [] => [[]]
  | NDir es => (fix go es := match es with [] => [] | (n, c) :: es => (map (cons n) (leaves c) ++ go es)%list end) es
  | _ => [[]]
  end.
Lemma leaves_all t f x : produced t f x -> In f (leaves t).
Proof.
  intros [L N]. induction L as [x|es n c p x I L IH].
  - destruct x as [c|g to|es]; [now left|now left|]. rewrite (N es eq_refl). now left.
  - specialize (IH N). destruct es as [|e es]; [destruct I|]. remember (e :: es) as es' eqn:E'.
    assert (K : leaves (NDir es') = (fix go es := match es with [] => [] | (n, c) :: es => (map (cons n) (leaves c) ++ go es)%list end) es') by (subst es'; reflexivity).
    rewrite K. clear K E' e es. induction es' as [|[m d] es' IH']; [destruct I|]. apply in_app_iff. destruct I as [I|I].
    + injection I as -> ->. left. now apply in_map.
    + right. now apply IH'.
Qed.
Definition clear_check (install : string) (t : node) (pkgs : list (list pathinfo)) : bool :=
  forallb (forallb (fun pi => forallb (fun f =>
    negb (occurs (install ++ pi_path pi) (install ++ text f)) || prefix String.eqb (names_of (pi_path pi)) f) (leaves t))) pkgs.
Lemma clear_check_ok install t pkgs : clear_check install t pkgs = true -> unambiguous install t pkgs.
Proof.
  unfold clear_check. rewrite forallb_forall. intros H i p f x (pi & (l & E & I) & Ep) Pf O. apply nth_error_In in E. specialize (H l E).
  rewrite forallb_forall in H. specialize (H pi I). rewrite forallb_forall in H. specialize (H f (leaves_all t f x Pf)).
  pose proof Ep as (_ & F & T & _). rewrite T, names_of_text in H by exact F. apply occurs_iff in O. rewrite O in H. now apply (prefix_iff _ string_eqb_iff).
Qed.
Definition distinct_check (pkgs : list (list pathinfo)) : bool :=
  forallb (fun a => forallb (fun b => negb (bool_decide (snd a = snd b)) || Nat.eqb (fst a) (fst b)) (all_paths_of pkgs)) (all_paths_of pkgs).
Lemma distinct_check_ok pkgs : all_explicit pkgs -> distinct_check pkgs = true -> distinct_paths pkgs.
Proof.
  intros X. unfold distinct_check. rewrite forallb_forall. intros H i j p Ni Nj. apply (all_paths_iff pkgs X) in Ni. apply (all_paths_iff pkgs X) in Nj.
  specialize (H _ Ni). rewrite forallb_forall in H. specialize (H _ Nj). cbn in H. rewrite bool_decide_true in H by reflexivity. now apply Nat.eqb_eq.
Qed.
Definition sandwich_check (pkgs : list (list pathinfo)) : bool :=
  let l := all_paths_of pkgs in
  forallb (fun a => forallb (fun b => forallb (fun c =>
    negb (prefix String.eqb (snd a) (snd b) && prefix String.eqb (snd b) (snd c) && Nat.eqb (fst a) (fst c)) || Nat.eqb (fst a) (fst b)) l) l) l.
Lemma sandwich_check_ok pkgs : all_explicit pkgs -> sandwich_check pkgs = true -> no_sandwich pkgs.
Proof.
  intros X. unfold sandwich_check. rewrite forallb_forall. intros H i j p q p' Np Nq Np' C1 C2. apply (all_paths_iff pkgs X) in Np, Nq, Np'.
  specialize (H _ Np). rewrite forallb_forall in H. specialize (H _ Nq). rewrite forallb_forall in H. specialize (H _ Np'). cbn in H.
  rewrite (proj2 (prefix_iff _ string_eqb_iff _ _) C1), (proj2 (prefix_iff _ string_eqb_iff _ _) C2), Nat.eqb_refl in H. cbn in H. now apply Nat.eqb_eq.
Qed.
Definition good_check (n : string) : bool := negb (String.eqb n "") && negb (char_in "/" n).
Lemma good_check_ok n : good_check n = true -> good_name n.
Proof.
  unfold good_check. rewrite andb_true_iff, !negb_true_iff. intros [A B]. split; [now apply String.eqb_neq|]. intros K. apply char_in_iff in K. congruence.
Qed.
Fixpoint tree_check (t : node) : bool :=
  match t with
  | NDir es => bool_decide (NoDup (map fst es)) &&
      (fix go es := match es with [] => true | (n, c) :: es => good_check n && tree_check c && go es end) es
  | _ => true
  end.
Lemma tree_check_ok t : tree_check t = true -> well_formed t.
Proof.
  induction t as [c|g to|es Rec] using node_induction; intros H; [constructor|constructor|]. cbn [tree_check] in H. apply andb_true_iff in H as [D H]. constructor.
  - apply NoDup_ListNoDup. now apply bool_decide_eq_true in D.
  - clear D. induction es as [|[m d] es IH]; [intros n c []|]. intros n c [I|I].
    + injection I as -> ->. apply andb_true_iff in H as [H _]. apply andb_true_iff in H as [G T]. split; [now apply good_check_ok|]. apply (Rec n c); [now left|exact T].
    + apply andb_true_iff in H as [_ H]. apply (IH (fun n c J => Rec n c (or_intror J)) H n c I).
Qed.
