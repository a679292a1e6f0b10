(** * The times in archives of object code *)
From Coq Require Import String Ascii ZArith List Bool Lia.
From Verif Require Import Model.Py Proof.PyFacts Model.ArTimes Spec.ArTimesSpec.
Import ListNotations.
Open Scope Z_scope.
Open Scope list_scope.

Notation nl := newline.
Definition F (s : bytes) : bytes := concat (map clean_line (readlines s)).

(** ** Lines *)
Lemma readlines_some a : readlines (a ++ [nl]) <> [].
Proof. destruct a as [|c a]; cbn [app readlines]; [discriminate|]. destruct (Ascii.eqb c nl); [discriminate|]. destruct (readlines (a ++ [nl])); discriminate. Qed.
Lemma readlines_nl a b : readlines (a ++ nl :: b) = readlines (a ++ [nl]) ++ readlines b.
Proof.
  induction a as [|c a IH]; [reflexivity|]. cbn [app readlines]. destruct (Ascii.eqb c nl); [now rewrite IH|]. rewrite IH.
  destruct (readlines (a ++ [nl])) eqn:E; [now apply readlines_some in E|]. reflexivity.
Qed.
Lemma readlines_one t : ~ In nl t -> readlines (t ++ [nl]) = [t ++ [nl]].
Proof.
  induction t as [|c t IH]; intros N; [reflexivity|]. cbn [app readlines]. destruct (Ascii.eqb_spec c nl) as [->|_]; [elim N; now left|]. rewrite IH; [reflexivity|]. intros K. apply N. now right.
Qed.
Lemma readlines_concat s : concat (readlines s) = s.
Proof.
  induction s as [|c s IH]; [reflexivity|]. cbn [readlines]. destruct (Ascii.eqb c nl); [cbn; now rewrite IH|].
  destruct (readlines s) as [|l ls]; cbn in *; now rewrite <- IH.
Qed.
Lemma line_part s l : In l (readlines s) -> exists a b, s = a ++ l ++ b.
Proof.
  intros H. apply in_split in H as (x & y & E). exists (concat x), (concat y). rewrite <- (readlines_concat s), E, concat_app. reflexivity.
Qed.
Lemma F_nl a b : F (a ++ nl :: b) = F (a ++ [nl]) ++ F b.
Proof. unfold F. now rewrite readlines_nl, map_app, concat_app. Qed.
Lemma last_line (d : bytes) : exists b t, d = b ++ t /\ ~ In nl t /\ (b = [] \/ exists b', b = b' ++ [nl]).
Proof.
  induction d as [|c d IH] using rev_ind; [exists [], []; auto|]. destruct (Ascii.eqb_spec c nl) as [->|N].
  - exists (d ++ [nl]), []. rewrite app_nil_r. split; [reflexivity|]. split; [auto|]. right. now exists d.
  - destruct IH as (b & t & -> & Nt & B). exists b, (t ++ [c]). rewrite app_assoc. split; [reflexivity|]. split; [|exact B]. intros K. apply in_app_iff in K as [K|[K|[]]]; [now apply Nt|congruence].
Qed.

(** ** Marks *)
Lemma rfind_low s : -1 <= rfind_mark s.
Proof. induction s as [|c s IH]; cbn [rfind_mark]; [lia|]. destruct (Z.ltb_spec (rfind_mark s) 0); [destruct (at_mark _); lia|lia]. Qed.
Lemma rfind_none s : no_mark s -> rfind_mark s = -1.
Proof.
  induction s as [|c s IH]; intros N; [reflexivity|]. cbn [rfind_mark]. rewrite IH. 2: { intros a b ->. now apply (N (c :: a) b). }
  cbn [Z.ltb Z.compare]. destruct (at_mark (c :: s)) eqn:E; [|reflexivity]. destruct s as [|d s]; [discriminate E|]. cbn in E. apply andb_true_iff in E as [E1 E2].
  apply Ascii.eqb_eq in E1. apply Ascii.eqb_eq in E2. subst. now elim (N [] s).
Qed.
Lemma rfind_last p : rfind_mark (p ++ [" "%char; "`"%char; nl]) = Z.of_nat (length p).
Proof.
  induction p as [|c p IH]; [reflexivity|]. cbn [app rfind_mark length]. rewrite IH. destruct (Z.ltb_spec (Z.of_nat (length p)) 0); lia.
Qed.
Lemma plain_line s : no_mark s -> clean_line s = s.
Proof. intros N. unfold clean_line. rewrite (rfind_none s N). reflexivity. Qed.
Lemma no_mark_part a l b : no_mark (a ++ l ++ b) -> no_mark l.
Proof. intros N x y ->. apply (N (a ++ x) (y ++ b)). rewrite <- !app_assoc. reflexivity. Qed.
Lemma F_plain s : no_mark s -> F s = s.
Proof.
  intros N. unfold F. rewrite (map_ext_in _ (fun l => l)); [now rewrite map_id, readlines_concat|].
  intros l H. apply plain_line. destruct (line_part s l H) as (a & b & ->). now apply no_mark_part in N.
Qed.

(** ** Slices *)
Lemma slice_at (a b c : bytes) i j : i = Z.of_nat (length a) -> j = Z.of_nat (length a + length b) -> slice i j (a ++ b ++ c) = b.
Proof.
  intros -> ->. unfold slice, clamp. rewrite !app_length. destruct (Z.ltb_spec (Z.of_nat (length a)) 0); [lia|]. destruct (Z.ltb_spec (Z.of_nat (length a + length b)) 0); [lia|].
  rewrite !Z.min_l by lia. rewrite Nat2Z.id. replace (Z.to_nat (Z.of_nat (length a + length b) - Z.of_nat (length a))) with (length b) by lia.
  rewrite skipn_app, skipn_all, Nat.sub_diag. cbn. rewrite firstn_app, Nat.sub_diag, firstn_all. cbn. apply app_nil_r.
Qed.
Lemma slice_from_at (a b : bytes) i : i = Z.of_nat (length a) -> slice_from i (a ++ b) = b.
Proof.
  intros ->. unfold slice_from, clamp. rewrite !app_length. destruct (Z.ltb_spec (Z.of_nat (length a)) 0); [lia|]. rewrite Z.min_l by lia. rewrite Nat2Z.id.
  now rewrite skipn_app, skipn_all, Nat.sub_diag.
Qed.

(** ** Headers *)
Lemma header_line m t : regular m -> ~ In nl t -> clean_line (t ++ header m) = t ++ header (undated m).
Proof.
  intros [[Ln Sl] Ld Lo (digits & Lg & Es) Nn] Nt. unfold header, undated. cbn [m_name m_date m_owner m_size m_data]. rewrite Es.
  set (n := m_name m) in *. set (d := m_date m) in *. set (o := m_owner m) in *.
  assert (d = firstn 10 d ++ skipn 10 d) as Sd by (symmetry; apply firstn_skipn).
  assert (length (firstn 10 d) = 10%nat) as L1 by (rewrite firstn_length; lia). assert (length (skipn 10 d) = 2%nat) as L2 by (rewrite skipn_length; lia).
  set (d1 := firstn 10 d) in *. set (d2 := skipn 10 d) in *. clearbody d1 d2. rewrite Sd.
  assert (t ++ n ++ (d1 ++ d2) ++ o ++ (digits ++ [" "%char]) ++ ["`"%char; nl] = (t ++ n ++ d1 ++ d2 ++ o ++ digits) ++ [" "%char; "`"%char; nl]) as E by (rewrite <- !app_assoc; reflexivity).
  unfold clean_line. rewrite E, rfind_last. rewrite !app_length, L1, L2, Ln, Lo, Lg.
  destruct (Z.ltb_spec (-1) (Z.of_nat (length t + (16 + (10 + (2 + (20 + 9))))))); [|lia]. cbn [andb].
  assert (slice (Z.of_nat (length t + (16 + (10 + (2 + (20 + 9))))) - 57) (Z.of_nat (length t + (16 + (10 + (2 + (20 + 9))))) + 2) ((t ++ n ++ d1 ++ d2 ++ o ++ digits) ++ [" "%char; "`"%char; nl]) = n ++ d1 ++ d2 ++ o ++ digits ++ [" "%char; "`"%char]) as W.
  { replace ((t ++ n ++ d1 ++ d2 ++ o ++ digits) ++ [" "%char; "`"%char; nl]) with (t ++ (n ++ d1 ++ d2 ++ o ++ digits ++ [" "%char; "`"%char]) ++ [nl]) by (rewrite <- !app_assoc; reflexivity).
    apply slice_at; rewrite ?app_length; cbn [length]; lia. }
  rewrite W. assert (has_slash (n ++ d1 ++ d2 ++ o ++ digits ++ [" "%char; "`"%char]) = true) as ->.
  { unfold has_slash. rewrite existsb_app. apply orb_true_iff. left. apply existsb_exists. exists "/"%char. split; [exact Sl|apply Ascii.eqb_refl]. }
  replace ((t ++ n ++ d1 ++ d2 ++ o ++ digits) ++ [" "%char; "`"%char; nl]) with ([] ++ (t ++ n) ++ (d1 ++ d2 ++ o ++ digits ++ [" "%char; "`"%char; nl])) at 1 by (rewrite <- !app_assoc; reflexivity).
  rewrite slice_at by (rewrite ?app_length; cbn [length]; lia).
  replace ((t ++ n ++ d1 ++ d2 ++ o ++ digits) ++ [" "%char; "`"%char; nl]) with ((t ++ n ++ d1) ++ (d2 ++ o ++ digits ++ [" "%char; "`"%char; nl])) by (rewrite <- !app_assoc; reflexivity).
  rewrite slice_from_at by (rewrite !app_length; lia). unfold zeros. change (" "%char :: "`"%char :: nl :: nil) with ([" "%char] ++ ["`"%char; nl]). now rewrite <- !app_assoc.
Qed.
Lemma header_ends m : regular m -> exists h, header m = h ++ [nl] /\ ~ In nl h.
Proof.
  intros [_ _ _ _ Nn]. exists (m_name m ++ m_date m ++ m_owner m ++ m_size m ++ ["`"%char]). split; [unfold header; now rewrite <- !app_assoc|].
  intros K. apply Nn. rewrite !in_app_iff in *. destruct K as [K|[K|[K|[K|[K|[]]]]]]; auto. discriminate K.
Qed.

Lemma members ms : (forall m, In m ms -> regular m /\ no_mark (m_data m)) -> forall d, no_mark d ->
  F (d ++ concat (map (fun m => header m ++ m_data m) ms)) = d ++ concat (map (fun m => header m ++ m_data m) (map undated ms)).
Proof.
  induction ms as [|m ms IH]; intros H d N; cbn [map concat].
  { rewrite !app_nil_r. now apply F_plain. }
  destruct (H m) as [R Nd]; [now left|]. specialize (IH (fun m' K => H m' (or_intror K)) (m_data m) Nd).
  destruct (header_ends m R) as (h & Eh & Nh). destruct (last_line d) as (b & t & -> & Nt & B).
  assert (F (b ++ (t ++ header m) ++ m_data m ++ concat (map (fun m => header m ++ m_data m) ms)) = b ++ (t ++ header (undated m)) ++ m_data m ++ concat (map (fun m => header m ++ m_data m) (map undated ms))) as G.
  { assert (F ((t ++ header m) ++ m_data m ++ concat (map (fun m => header m ++ m_data m) ms)) = (t ++ header (undated m)) ++ m_data m ++ concat (map (fun m => header m ++ m_data m) (map undated ms))) as G1.
    { rewrite Eh. replace ((t ++ h ++ [nl]) ++ m_data m ++ concat (map (fun m => header m ++ m_data m) ms)) with ((t ++ h) ++ nl :: (m_data m ++ concat (map (fun m => header m ++ m_data m) ms))) by (rewrite <- !app_assoc; reflexivity).
      rewrite F_nl, IH. f_equal. unfold F. rewrite readlines_one by (rewrite in_app_iff; tauto). cbn [map concat]. rewrite app_nil_r, <- app_assoc, <- Eh. now apply header_line. }
    destruct B as [->|[b' ->]]; [exact G1|]. replace ((b' ++ [nl]) ++ (t ++ header m) ++ m_data m ++ concat (map (fun m => header m ++ m_data m) ms)) with (b' ++ nl :: ((t ++ header m) ++ m_data m ++ concat (map (fun m => header m ++ m_data m) ms))) by (rewrite <- !app_assoc; reflexivity).
    rewrite F_nl, G1. rewrite F_plain; [reflexivity|]. exact (no_mark_part [] (b' ++ [nl]) t N). }
  rewrite <- !app_assoc in *. exact G.
Qed.

Lemma archive_lines x : readlines (magic ++ x) = magic :: readlines x.
Proof. unfold magic. rewrite <- app_assoc. cbn [app]. rewrite readlines_nl, readlines_one; [reflexivity|]. cbn. intros K. repeat (destruct K as [K|K]; [discriminate K|]). exact K. Qed.
Lemma archive_is x : is_ar_file (magic ++ x) = true.
Proof. unfold is_ar_file. now rewrite archive_lines. Qed.
Lemma clean_archive ms : (forall m, In m ms -> regular m /\ no_mark (m_data m)) -> clean_ar_timestamps (archive ms) = archive (map undated ms).
Proof.
  intros H. unfold clean_ar_timestamps, archive. rewrite archive_is, archive_lines. cbn [map concat].
  assert (no_mark []) as N by (intros a b; destruct a; discriminate). pose proof (members ms H [] N) as M. unfold F in M. cbn [app] in M. rewrite M. reflexivity.
Qed.
Lemma undated_regular m : regular m -> regular (undated m).
Proof.
  intros [A B C D E]. constructor; cbn [undated m_name m_date m_owner m_size]; auto.
  - rewrite app_length, skipn_length, B. reflexivity.
  - intros K. apply E. rewrite !in_app_iff in *. destruct K as [K|[[K|K]|[K|K]]]; auto.
    + cbn in K. repeat (destruct K as [K|K]; [discriminate K|]). destruct K.
    + right. left. rewrite <- (firstn_skipn 10). apply in_app_iff. now right.
Qed.

(** ** Any file *)
Lemma slice_length a b s : 0 <= a <= b -> b <= Z.of_nat (length s) -> length (slice a b s) = Z.to_nat (b - a).
Proof.
  intros A B. unfold slice, clamp. destruct (Z.ltb_spec a 0); [lia|]. destruct (Z.ltb_spec b 0); [lia|]. rewrite !Z.min_l by lia. rewrite firstn_length, skipn_length. lia.
Qed.
Lemma rfind_high s : rfind_mark s < Z.of_nat (length s) \/ s = [].
Proof.
  induction s as [|c s IH]; [now right|left]. cbn [rfind_mark length]. destruct (Z.ltb_spec (rfind_mark s) 0); [destruct (at_mark _); lia|]. destruct IH as [IH| ->]; [lia|]. cbn in *. lia.
Qed.
Lemma clean_line_length l : (rfind_mark l < 0 \/ 41 <= rfind_mark l) -> length (clean_line l) = length l.
Proof.
  intros H. unfold clean_line. destruct (Z.ltb_spec (-1) (rfind_mark l)); [|reflexivity]. cbn [andb]. destruct (has_slash _); [|reflexivity].
  destruct (rfind_high l) as [K| ->]; [|cbn in *; lia]. rewrite !app_length. rewrite slice_length by lia. unfold slice_from, clamp. destruct (Z.ltb_spec (rfind_mark l - 31) 0); [lia|]. rewrite Z.min_l by lia.
  rewrite skipn_length. cbn [length zeros repeat]. lia.
Qed.
Lemma rfind_mark_at s : 0 <= rfind_mark s -> exists a b, s = a ++ [" "%char; "`"%char] ++ b /\ rfind_mark s = Z.of_nat (length a).
Proof.
  induction s as [|c s IH]; cbn [rfind_mark]; [lia|]. destruct (Z.ltb_spec (rfind_mark s) 0) as [L|L].
  - destruct (at_mark (c :: s)) eqn:E; [|lia]. intros _. destruct s as [|d s]; [discriminate E|]. cbn in E. apply andb_true_iff in E as [E1 E2]. apply Ascii.eqb_eq in E1. apply Ascii.eqb_eq in E2. subst. exists [], s. now split.
  - intros _. destruct (IH L) as (a & b & -> & Eq). exists (c :: a), b. split; [reflexivity|]. cbn [length]. lia.
Qed.
Lemma clean_length s : (forall l a b, In l (readlines s) -> l = a ++ [" "%char; "`"%char] ++ b -> (41 <= length a)%nat) -> length (clean_ar_timestamps s) = length s.
Proof.
  intros H. unfold clean_ar_timestamps. destruct (is_ar_file s); [|reflexivity]. rewrite <- (readlines_concat s) at 2. generalize dependent (readlines s). clear s. intros ls H.
  induction ls as [|l ls IH]; [reflexivity|]. cbn. rewrite !app_length, IH by (intros l' a b K; apply H; now right). f_equal. apply clean_line_length.
  destruct (Z.ltb_spec (rfind_mark l) 0) as [L|L]; [now left|right]. destruct (rfind_mark_at l L) as (a & b & E & ->). specialize (H l a b (or_introl eq_refl) E). lia.
Qed.
Lemma clean_plain s : no_mark s -> clean_ar_timestamps s = s.
Proof. intros N. unfold clean_ar_timestamps. destruct (is_ar_file s); [now apply F_plain|reflexivity]. Qed.
Lemma clean_other s : clean_ar_timestamps s <> s ->
  exists w rest, s = w ++ list_ascii_of_string "!<arch>" ++ rest /\ Forall (fun c => In c (list_ascii_of_string whitespace_chars)) w.
Proof.
  intros H. unfold clean_ar_timestamps in H. destruct (is_ar_file s) eqn:E; [|congruence]. unfold is_ar_file in E. apply String.eqb_eq in E.
  destruct (lstrip_decomp whitespace_chars (string_of_list_ascii match readlines s with [] => [] | l :: _ => l end)) as (p & Ep & Wp & _).
  unfold py_strip in E. destruct (rstrip_decomp whitespace_chars (py_lstrip whitespace_chars (string_of_list_ascii match readlines s with [] => [] | l :: _ => l end))) as (q & Eq & _ & _).
  rewrite E in Eq. rewrite Eq in Ep. pose proof (f_equal list_ascii_of_string Ep) as K. rewrite list_ascii_of_string_of_list_ascii in K. rewrite !los_app in K.
  exists (los p), (los q ++ concat (tl (readlines s))). split.
  - rewrite <- (readlines_concat s) at 1. destruct (readlines s) as [|l ls]; [exfalso; destruct (los p); discriminate K|]. cbn [concat tl]. rewrite K, <- !app_assoc. reflexivity.
  - eapply Forall_impl; [|exact Wp]. intros a. apply char_in_iff.
Qed.
Lemma clean_twice ms : (forall m, In m ms -> regular m /\ no_mark (m_data m)) -> clean_ar_timestamps (clean_ar_timestamps (archive ms)) = clean_ar_timestamps (archive ms).
Proof.
  intros H. rewrite (clean_archive ms H). rewrite clean_archive.
  - f_equal. rewrite map_map. apply map_ext. intros m. reflexivity.
  - intros m K. apply in_map_iff in K as (m0 & <- & K). destruct (H m0 K) as [R N]. split; [now apply undated_regular|exact N].
Qed.
Lemma clean_same ms ms' :
  (forall m, In m ms -> regular m /\ no_mark (m_data m)) ->
  (forall m, In m ms' -> regular m /\ no_mark (m_data m)) ->
  Forall2 (fun m m' => m_name m = m_name m' /\ m_owner m = m_owner m' /\ m_size m = m_size m' /\ m_data m = m_data m' /\
             skipn 10 (m_date m) = skipn 10 (m_date m')) ms ms' ->
  clean_ar_timestamps (archive ms) = clean_ar_timestamps (archive ms').
Proof.
  intros H H' S. rewrite !clean_archive by assumption. f_equal. clear H H'. induction S as [|m m' ms ms' (A & B & C & D & E) S IH]; [reflexivity|]. cbn [map]. rewrite IH. f_equal. unfold undated. congruence.
Qed.
Lemma app_same {A} (a a' b b' : list A) : length a = length a' -> a ++ b = a' ++ b' -> a = a' /\ b = b'.
Proof. revert a'. induction a as [|x a IH]; intros [|x' a'] L E; cbn in *; try discriminate; [auto|]. injection E as -> E. destruct (IH a') as [-> ->]; auto. Qed.
Lemma clean_apart ms ms' :
  (forall m, In m ms -> regular m /\ no_mark (m_data m)) ->
  (forall m, In m ms' -> regular m /\ no_mark (m_data m)) ->
  clean_ar_timestamps (archive ms) = clean_ar_timestamps (archive ms') ->
  Forall2 (fun m m' => length (m_data m) = length (m_data m')) ms ms' ->
  Forall2 (fun m m' => m_name m = m_name m' /\ m_owner m = m_owner m' /\ m_size m = m_size m' /\ m_data m = m_data m' /\
             skipn 10 (m_date m) = skipn 10 (m_date m')) ms ms'.
Proof.
  intros H H' E L. rewrite !clean_archive in E by assumption. unfold archive in E. apply app_inv_head in E. induction L as [|m m' ms ms' Lm L IH]; constructor.
  - clear IH. destruct (H m (or_introl eq_refl)) as [[[N1 _] D1 O1 (g & G1 & G2) _] _]. destruct (H' m' (or_introl eq_refl)) as [[[N1' _] D1' O1' (g' & G1' & G2') _] _].
    cbn [map concat] in E. unfold header, undated in E. cbn [m_name m_date m_owner m_size m_data] in E. rewrite <- !app_assoc in E.
    apply app_same in E as [E1 E]; [|congruence]. apply app_inv_head in E. apply app_same in E as [E2 E]; [|rewrite !skipn_length; congruence]. apply app_same in E as [E3 E]; [|congruence].
    apply app_same in E as [E4 E]; [|rewrite G2, G2', !app_length; congruence]. apply app_inv_head in E. apply app_same in E as [E5 E]; [|exact Lm]. auto.
  - apply IH; [intros x K; apply H; now right|intros x K; apply H'; now right|].
    clear IH. destruct (H m (or_introl eq_refl)) as [[[N1 _] D1 O1 (g & G1 & G2) _] _]. destruct (H' m' (or_introl eq_refl)) as [[[N1' _] D1' O1' (g' & G1' & G2') _] _].
    cbn [map concat] in E. unfold header at 1 3, undated at 1 2 3 4 5 7 8 9 10 11 in E. cbn [m_name m_date m_owner m_size m_data] in E. 
    apply app_same in E as [_ E]; [exact E|]. unfold header, undated. cbn [m_name m_date m_owner m_size m_data]. rewrite !app_length, !skipn_length, G2, G2', !app_length. cbn [length]. congruence.
Qed.
