(** * Additional files: lemmas *)
From Coq Require Import String Ascii NArith List Lia Bool.
From stdpp Require Import gmap strings.
From Verif Require Import Model.Py Model.Path Model.Index Spec.PathSpec Proof.PyFacts Proof.PathFacts Model.Additional Spec.AdditionalSpec.
Import ListNotations.
Open Scope string_scope.

(** ** Places *)
Lemma rel_last p : relative_path p -> exists n, n <> "" /\ free_of "/" n /\ (p = n \/ exists q, relative_path q /\ p = q ++ "/" ++ n).
Proof.
  induction 1 as [n N F|n p N F R (m & M & Fm & [->|(q & Q & ->)])].
  - exists n. auto.
  - exists m. split; [assumption|]. split; [assumption|]. right. exists n. split; [now apply rel_name|reflexivity].
  - exists m. split; [assumption|]. split; [assumption|]. right. exists (n ++ "/" ++ q). split; [now apply rel_under|]. now rewrite !str_app_assoc.
Qed.
Lemma free_start n : free_of "/" n -> py_startswith n "/" = false.
Proof. intros F. apply not_true_iff_false. rewrite startswith_iff. intros [r ->]. apply F. now left. Qed.
Lemma app_some a b : a <> "" -> a ++ b <> "".
Proof. now destruct a. Qed.
Lemma ends_app a b : b <> "" -> ends_in_slash (a ++ b) -> ends_in_slash b.
Proof.
  intros N [t H]. destruct (exists_last (l := los b)) as (l & x & L); [intros K; apply N; now apply los_inj|].
  apply (f_equal los) in H. rewrite !los_app, L, app_assoc in H. change (los "/") with ["/"%char] in H. apply app_inj_tail in H as [_ ->].
  exists (sol l). apply los_inj. now rewrite los_app, list_ascii_of_string_of_list_ascii, L.
Qed.
Lemma join_plain d n : d <> "" -> ~ ends_in_slash d -> free_of "/" n -> os_join d n = d ++ "/" ++ n.
Proof.
  intros D E F. unfold os_join. rewrite (free_start n F), (proj2 (String.eqb_neq d "") D). cbn [orb].
  assert (py_endswith d "/" = false) as ->; [|reflexivity]. apply not_true_iff_false. now rewrite endswith_iff.
Qed.
Lemma dest_good install target : install_place install -> good_target target -> dest_of install target = install ++ target.
Proof.
  intros [N E] (p & -> & R). unfold dest_of. destruct (rel_last p R) as (n & Nn & F & [->|(q & Q & ->)]).
  - rewrite (dirname_top n F). change ("/" ++ n) with ("" ++ "/" ++ n) at 1. rewrite (basename_under "" n F).
    unfold os_join. rewrite (free_start n F). assert (py_endswith (install ++ "/") "/" = true) as -> by (apply endswith_iff; now exists install).
    rewrite orb_true_r. now rewrite str_app_assoc.
  - replace ("/" ++ q ++ "/" ++ n) with (("/" ++ q) ++ "/" ++ n) by now rewrite str_app_assoc.
    assert (~ ends_in_slash ("/" ++ q)) as Eq by (intros K; apply (rel_no_end q Q); apply (ends_app "/"); [now apply rel_nonempty|assumption]).
    rewrite (dirname_under ("/" ++ q) n); [|discriminate|assumption|assumption]. rewrite (basename_under ("/" ++ q) n F).
    rewrite join_plain; [now rewrite !str_app_assoc|now apply app_some| |assumption].
    intros K. apply Eq. apply (ends_app install); [discriminate|assumption].
Qed.
(** A target that does not begin with a slash *)
Lemma dest_relative install p n : install_place install -> relative_path p -> n <> "" -> free_of "/" n ->
  dest_of install (p ++ "/" ++ n) = install ++ p ++ "/" ++ n.
Proof.
  intros [N E] R Nn F. unfold dest_of. rewrite (dirname_under p n); [|now apply rel_nonempty|now apply rel_no_end|assumption]. rewrite (basename_under p n F).
  rewrite join_plain; [now rewrite !str_app_assoc|now apply app_some| |assumption].
  intros K. apply (rel_no_end p R). apply (ends_app install); [now apply rel_nonempty|assumption].
Qed.

(** ** Octal numbers *)
Lemma oct_digit_iff c d : oct_digit c = Some d <-> (d < 8)%N /\ c = ascii_of_N (48 + d).
Proof.
  unfold oct_digit. split.
  - destruct ((48 <=? N_of_ascii c)%N && (N_of_ascii c <=? 55)%N) eqn:E; [|discriminate]. intros [= <-].
    apply andb_true_iff in E as [A B]. apply N.leb_le in A, B. split; [lia|].
    rewrite <- (ascii_N_embedding c) at 1. f_equal. lia.
  - intros [L ->]. rewrite N_ascii_embedding by lia.
    assert ((48 <=? 48 + d)%N && (48 + d <=? 55)%N = true) as -> by (apply andb_true_iff; split; apply N.leb_le; lia). f_equal. lia.
Qed.
Lemma oct_digits_iff s : forall acc n, oct_digits acc s = Some n <->
  exists ds, List.Forall (fun d => (d < 8)%N) ds /\ n = (acc * 8 ^ N.of_nat (length ds) + octal_value ds)%N /\ los s = map (fun d => ascii_of_N (48 + d)) ds.
Proof.
  induction s as [|c s IH]; intros acc n; cbn [oct_digits].
  - split.
    + intros [= <-]. exists []. split; [constructor|]. split; [cbn; lia|reflexivity].
    + intros (ds & _ & -> & H). destruct ds; [|discriminate]. f_equal. cbn. lia.
  - split.
    + destruct (oct_digit c) as [d|] eqn:D; [|discriminate]. intros H. apply oct_digit_iff in D as [L ->]. apply IH in H as (ds & F & -> & E).
      exists (d :: ds). split; [now constructor|]. split; [|cbn; now rewrite E].
      cbn [length octal_value]. rewrite Nat2N.inj_succ, N.pow_succ_r'. lia.
    + intros (ds & F & -> & E). destruct ds as [|d ds]; [discriminate|]. injection E as -> E. apply List.Forall_cons_iff in F as [L F].
      rewrite (proj2 (oct_digit_iff _ d)) by auto. apply IH. exists ds. split; [assumption|]. split; [|assumption].
      cbn [length octal_value]. rewrite Nat2N.inj_succ, N.pow_succ_r'. lia.
Qed.
Lemma int8_iff s n : int8 s = Ok n <-> octal s n.
Proof.
  unfold int8, octal. destruct s as [|c s].
  - split; [discriminate|]. intros (ds & N & _ & _ & H). destruct ds; [congruence|discriminate].
  - pose proof (oct_digits_iff (String c s) 0 n) as I. split.
    + destruct (oct_digits 0 (String c s)) as [x|] eqn:E; [|discriminate]. intros [= ->]. destruct (proj1 I eq_refl) as (ds & F & -> & L). exists ds.
      split; [intros ->; discriminate|]. split; [assumption|]. split; [lia|assumption].
    + intros (ds & _ & F & -> & L). rewrite (proj2 I); [reflexivity|]. exists ds. split; [assumption|]. split; [lia|assumption].
Qed.
Lemma octal_one s n m : octal s n -> octal s m -> n = m.
Proof. rewrite <- !int8_iff. congruence. Qed.

(** ** The last one *)
Lemma last_with_cons {A} (P : A -> Prop) a l x : last_with P l x -> last_with P (a :: l) x.
Proof. intros (b & c & -> & H). exists (a :: b), c. auto. Qed.
Lemma last_with_head {A} (P : A -> Prop) a l : P a -> (forall y, In y l -> ~ P y) -> last_with P (a :: l) a.
Proof. intros H N. exists [], l. auto. Qed.
Lemma last_with_one {A} (P : A -> Prop) l x y : last_with P l x -> last_with P l y -> x = y.
Proof.
  intros (b & c & -> & Hx & Nx) (b' & c' & E & Hy & Ny). apply app_eq_app in E as (k & [[-> E]|[-> E]]).
  - destruct k as [|z k]; [now injection E|]. injection E as <- ->. exfalso. apply (Ny x); [|assumption]. apply in_or_app. right. now left.
  - destruct k as [|z k]; [now injection E|]. injection E as <- ->. exfalso. apply (Nx y); [|assumption]. apply in_or_app. right. now left.
Qed.
Lemma last_with_in {A} (P : A -> Prop) l x : last_with P l x -> In x l /\ P x.
Proof. intros (b & c & -> & H & _). split; [|assumption]. apply in_or_app. right. now left. Qed.

Lemma unsaid_dec af : unsaid af \/ ~ unsaid af.
Proof. unfold unsaid. destruct (af_permission af) as [[|c s]|]; [auto| |auto]. right. intros [K|K]; discriminate. Qed.

Section storing.
  Context (sources : string -> option string) (umask : N) (install : string).
  Local Notation store := (store sources umask install).
  Local Notation store_one := (store_one sources umask install).
  Local Notation placed := (placed sources umask install).
  Local Notation mode_of := (mode_of umask install).
  Local Notation for_place := (for_place install).
  Context (IP : install_place install).

  Definition fresh : N := N.land 438 (N.lxor 511 umask).
  Definition was (t : tree) (f : string) : N := match t !! f with Some (_, m) => m | None => fresh end.

  (** What one does *)
  Lemma store_one_ok t af t' : good_target (af_target af) -> store_one t af = (t', Ok tt) ->
    exists c m, sources (af_name af) = Some c /\ t' = <[install ++ af_target af := (c, m)]> t /\
      (unsaid af /\ m = was t (install ++ af_target af) \/ ~ unsaid af /\ exists n, permits af n /\ m = (n mod 4096)%N).
  Proof.
    intros G H. unfold Additional.store_one, copy_file in H. rewrite (dest_good install _ IP G) in H.
    destruct (sources (af_name af)) as [c|]; [|discriminate]. destruct (blocked t (install ++ af_target af)); [discriminate|].
    exists c. fold fresh in H. change (match t !! (install ++ af_target af) with Some (_, m) => m | None => fresh end) with (was t (install ++ af_target af)) in H.
    destruct (af_permission af) as [s|] eqn:P.
    - destruct s as [|x s].
      + injection H as <-. exists (was t (install ++ af_target af)). split; [reflexivity|]. split; [reflexivity|]. left. split; [right; exact P|reflexivity].
      + destruct (int8 (String x s)) as [n|e] eqn:I; [|discriminate]. injection H as <-. exists (n mod 4096)%N. split; [reflexivity|]. split.
        * unfold chmod. rewrite lookup_insert, insert_insert. do 2 f_equal. change 4095%N with (N.ones 12). now rewrite N.land_ones.
        * right. split; [intros [K|K]; congruence|]. exists n. split; [|reflexivity]. exists (String x s). split; [exact P|]. now apply int8_iff.
    - injection H as <-. exists (was t (install ++ af_target af)). split; [reflexivity|]. split; [reflexivity|]. left. split; [left; exact P|reflexivity].
  Qed.

  Lemma store_ok afs : forall t t', (forall af, In af afs -> good_target (af_target af)) -> store t afs = (t', Ok tt) -> forall f, placed t afs f (t' !! f).
  Proof.
    induction afs as [|af afs IH]; intros t t' G H f; cbn [Additional.store] in H.
    - injection H as <-. apply placed_old. intros af [].
    - destruct (store_one t af) as [t1 [u|e]] eqn:S; [|discriminate]. destruct u.
      assert (good_target (af_target af)) as Ga by (apply G; now left).
      destruct (store_one_ok t af t1 Ga S) as (c & m & Src & T1 & M).
      specialize (IH t1 t' (fun x I => G x (or_intror I)) H f).
      inversion IH as [af2 c2 m2 L2 S2 M2 E2|N2 E2].
      + apply (placed_new _ _ _ _ _ _ af2); [now apply last_with_cons|assumption|].
        destruct M2 as [(af3 & n & L3 & P3 & ->)|(Un & Old & New)].
        * left. exists af3, n. split; [now apply last_with_cons|auto].
        * destruct (string_dec f (install ++ af_target af)) as [Ef|Nf].
          -- assert (t1 !! f = Some (c, m)) as T by (rewrite T1, Ef; apply lookup_insert). rewrite (Old c m T).
             destruct M as [[Ua ->]|[Ua (n & Pn & ->)]].
             ++ right. split; [intros x [<-|I]; auto|]. unfold was. rewrite <- Ef. split; [intros c0 m0 ->; reflexivity|intros ->; reflexivity].
             ++ left. exists af, n. split; [|auto]. apply last_with_head; [split; assumption|]. intros y I [Fy Ny]. apply Ny. now apply Un.
          -- assert (t1 !! f = t !! f) as T by (rewrite T1; apply lookup_insert_ne; congruence). rewrite T in Old, New. right. split; [|auto].
             intros x [<-|I] Fx; [contradiction|auto].
      + destruct (string_dec f (install ++ af_target af)) as [Ef|Nf].
        * assert (t1 !! f = Some (c, m)) as T by (rewrite T1, Ef; apply lookup_insert). rewrite T.
          apply (placed_new _ _ _ _ _ _ af); [now apply last_with_head|assumption|].
          destruct M as [[Ua ->]|[Ua (n & Pn & ->)]].
          -- right. split; [intros x [<-|I] Fx; [assumption|exfalso; now apply (N2 x I)]|]. unfold was. rewrite <- Ef. split; [intros c0 m0 ->; reflexivity|intros ->; reflexivity].
          -- left. exists af, n. split; [|auto]. apply last_with_head; [split; assumption|]. intros y I [Fy _]. now apply (N2 y I).
        * assert (t1 !! f = t !! f) as -> by (rewrite T1; apply lookup_insert_ne; congruence). apply placed_old.
          intros x [<-|I]; [assumption|auto].
  Qed.

  Lemma store_app l1 l2 : forall t, store t (l1 ++ l2) = (let '(t1, r) := store t l1 in match r with Ok _ => store t1 l2 | Err e => (t1, Err e) end).
  Proof.
    induction l1 as [|a l1 IH]; intros t; cbn [app Additional.store]; [now destruct (store t l2)|].
    destruct (store_one t a) as [t1 [u|e]]; [apply IH|reflexivity].
  Qed.
  (** Files that are nobody's target stay *)
  Lemma store_keeps afs t t' f : (forall af, In af afs -> good_target (af_target af)) -> store t afs = (t', Ok tt) ->
    (forall af, In af afs -> ~ for_place f af) -> t' !! f = t !! f.
  Proof.
    intros G H N. pose proof (store_ok afs t t' G H f) as P. inversion P as [af c m L S M E|K E]; [|reflexivity].
    apply last_with_in in L as [I L]. exfalso. now apply (N af I).
  Qed.

  (** ** When it succeeds *)
  Lemma below_iff f g : below f g = true <-> exists r, g = f ++ "/" ++ r.
  Proof. unfold below. rewrite startswith_iff. split; intros [r ->]; exists r; now rewrite str_app_assoc. Qed.
  Lemma store_possible afs : forall t, storable sources install t afs -> exists t', store t afs = (t', Ok tt).
  Proof.
    induction afs as [|af afs IH]; intros t [Each Apart]; cbn [Additional.store]; [now eexists|].
    destruct (Each af (or_introl eq_refl)) as (G & [c Src] & Perm).
    assert (blocked t (install ++ af_target af) = false) as B.
    { apply not_true_iff_false. unfold blocked. rewrite orb_true_iff, existsb_exists. intros [(g & I & K)|K].
      - apply elem_of_list_In, elem_of_list_fmap in I as ([g' x] & -> & I). apply elem_of_map_to_list in I. cbn [fst] in K.
        destruct (Apart af g' (or_introl eq_refl)) as [A1 A2]; [left; rewrite I; now eexists|].
        apply orb_true_iff in K as [K|K]; apply below_iff in K as [r K]; [now apply (A2 r)|]. apply (A1 r). now rewrite K, str_app_assoc.
      - apply endswith_iff in K. destruct G as (p & E & R). rewrite E in K. apply (rel_no_end p R). apply (ends_app (install ++ "/")); [now apply rel_nonempty|].
        now rewrite str_app_assoc. }
    assert (exists t1, store_one t af = (t1, Ok tt)) as [t1 S].
    { unfold Additional.store_one, copy_file. rewrite (dest_good install _ IP G), Src, B. destruct Perm as [[-> | ->]|(n & s & -> & O)]; [now eexists..|].
      apply int8_iff in O. destruct s; [discriminate|]. rewrite O. now eexists. }
    rewrite S. destruct (store_one_ok t af t1 G S) as (c' & m & _ & -> & _). apply IH. split.
    - intros x I. apply Each. now right.
    - intros x g I K. apply Apart; [now right|]. destruct K as [K|(y & Iy & ->)]; [|right; exists y; split; [now right|reflexivity]].
      apply lookup_insert_is_Some in K as [<-|[_ K]]; [right; exists af; split; [now left|reflexivity]|now left].
  Qed.

  (** ** The loop *)
  Local Notation make_each := (make_each sources umask install).
  Lemma make_each_is pkgs : forall t made t' r, make_each t pkgs = (made, t', r) ->
    (forall k m, made !! k = Some m -> exists pk tk, pkgs !! k = Some pk /\ store t (added_upto pkgs k) = (tk, Ok tt) /\ m = filter (fun kv => ap_takes pk kv.1 = true) tk) /\
    (r = Ok tt -> length made = length pkgs /\ store t (concat (map ap_files pkgs)) = (t', Ok tt)) /\
    (forall e, r = Err e -> (length made < length pkgs)%nat /\ store t (added_upto pkgs (length made)) = (t', Err e)).
  Proof.
    induction pkgs as [|p pkgs IH]; intros t made t' r H; cbn [Additional.make_each] in H.
    - injection H as <- <- <-. split; [intros k m K; discriminate|]. split; [intros _; split; reflexivity|discriminate].
    - destruct (store t (ap_files p)) as [t1 [u|e]] eqn:St1.
      + destruct u. destruct (make_each t1 pkgs) as [[rest t2] r2] eqn:R. injection H as <- <- <-. destruct (IH t1 rest t2 r2 R) as (A & B & C). split; [|split].
        * intros [|k] m K.
          -- injection K as <-. exists p, t1. split; [reflexivity|]. split; [|reflexivity]. unfold added_upto. cbn. now rewrite app_nil_r.
          -- destruct (A k m K) as (pk & tk & Hp & Hs & Hm). exists pk, tk. split; [exact Hp|]. split; [|exact Hm].
             unfold added_upto in *. cbn [firstn map concat] in *. rewrite store_app, St1. exact Hs.
        * intros E. destruct (B E) as [L St]. cbn [length map concat]. rewrite L, store_app, St1. auto.
        * intros e E. destruct (C e E) as [L St]. split; [cbn; lia|]. unfold added_upto in *. cbn [length]. change (firstn (S (S (length rest))) (p :: pkgs)) with (p :: firstn (S (length rest)) pkgs).
          cbn [map concat]. rewrite store_app, St1. exact St.
      + injection H as <- <- <-. split; [intros k m K; discriminate|]. split; [discriminate|]. intros e' [= <-]. split; [cbn; lia|].
        unfold added_upto. cbn. now rewrite app_nil_r.
  Qed.
  Lemma upto_in pkgs k af : In af (added_upto pkgs k) -> exists pk, In pk pkgs /\ In af (ap_files pk).
  Proof.
    unfold added_upto. rewrite in_concat. intros (l & L & I). apply in_map_iff in L as (pk & <- & L). exists pk. split; [|assumption].
    rewrite <- (firstn_skipn (S k) pkgs). apply in_or_app. now left.
  Qed.
  Definition all_good (pkgs : list apkg) : Prop := forall pk af, In pk pkgs -> In af (ap_files pk) -> good_target (af_target af).

  Lemma made_holds pkgs t made t' r k m : all_good pkgs -> make_each t pkgs = (made, t', r) -> made !! k = Some m ->
    exists pk, pkgs !! k = Some pk /\ forall f, (ap_takes pk f = true -> placed t (added_upto pkgs k) f (m !! f)) /\ (ap_takes pk f = false -> m !! f = None).
  Proof.
    intros G H K. destruct (proj1 (make_each_is pkgs t made t' r H) k m K) as (pk & tk & Hp & Hs & ->). exists pk. split; [assumption|]. intros f. split.
    - intros T. assert (filter (fun kv => ap_takes pk kv.1 = true) tk !! f = tk !! f) as ->.
      { destruct (tk !! f) as [x|] eqn:E; [apply map_filter_lookup_Some; split; [exact E|exact T]|]. apply map_filter_lookup_None. now left. }
      apply store_ok; [|assumption]. intros af I. apply upto_in in I as (q & Iq & I). now apply (G q).
    - intros T. apply map_filter_lookup_None. right. intros x _. cbn. congruence.
  Qed.

  (** ** Once more *)
  Lemma permits_one af n m : permits af n -> permits af m -> n = m.
  Proof. intros (s & E & O) (s' & E' & O'). assert (s' = s) as -> by congruence. now apply (octal_one s). Qed.

  (** Two runs that start from places alike *)
  Lemma placed_again t u afs f x y : placed t afs f x -> placed u afs f y ->
    (forall af, In af afs -> ~ for_place f af) \/ (exists c m, u !! f = Some (c, m) /\ exists c', x = Some (c', m)) ->
    ((forall af, In af afs -> ~ for_place f af) -> u !! f = t !! f) -> y = x.
  Proof.
    intros Px Py Start Same. inversion Px as [af c m L S M E|N E]; inversion Py as [af' c' m' L' S' M' E'|N' E'].
    - rewrite (last_with_one _ _ _ _ L' L) in S'. assert (c' = c) as -> by congruence. do 2 f_equal.
      destruct Start as [K|(cu & mu & U & c0 & X)]; [apply last_with_in in L as [I L]; exfalso; now apply (K af I)|].
      rewrite <- E in X. injection X as <- <-.
      destruct M' as [(b & n & Lb & Pb & ->)|(Un & Old & _)]; [|now rewrite (Old _ _ U)].
      destruct M as [(b' & n' & Lb' & Pb' & ->)|(Un & _)].
      + rewrite (last_with_one _ _ _ _ Lb' Lb) in Pb'. now rewrite (permits_one _ _ _ Pb Pb').
      + apply last_with_in in Lb as [I [F Nb]]. exfalso. apply Nb. now apply Un.
    - apply last_with_in in L as [I L]. exfalso. now apply (N' af I).
    - apply last_with_in in L' as [I L']. exfalso. now apply (N af' I).
    - now apply Same.
  Qed.

  Lemma store_upto pkgs k t t' : store t (concat (map ap_files pkgs)) = (t', Ok tt) ->
    exists tk, store t (added_upto pkgs k) = (tk, Ok tt) /\ store tk (concat (map ap_files (skipn (S k) pkgs))) = (t', Ok tt).
  Proof.
    intros H. rewrite <- (firstn_skipn (S k) pkgs), map_app, concat_app, store_app in H. unfold added_upto.
    destruct (store t (concat (map ap_files (firstn (S k) pkgs)))) as [tk [u|e]]; [|discriminate]. destruct u. now exists tk.
  Qed.

  Lemma made_again pkgs t strip made t1 made2 t2 :
    all_good pkgs ->
    (exists h : string -> string -> string, (forall f c, h f (h f c) = h f c) /\ forall u f, strip u !! f = match u !! f with Some (c, m) => Some (h f c, m) | None => None end) ->
    (forall k j pk pj af, (k < j)%nat -> pkgs !! k = Some pk -> pkgs !! j = Some pj -> In af (ap_files pj) -> ap_takes pk (install ++ af_target af) = false) ->
    make_packages sources umask install strip t pkgs = (made, t1, Ok tt) ->
    make_packages sources umask install strip t1 pkgs = (made2, t2, Ok tt) -> made2 = made.
  Proof.
    intros G (h & Hh & Hs) Later M1 M2. unfold make_packages in M1, M2.
    destruct (make_each_is pkgs _ _ _ _ M1) as (A1 & B1 & _), (make_each_is pkgs _ _ _ _ M2) as (A2 & B2 & _).
    destruct (B1 eq_refl) as [L1 S1], (B2 eq_refl) as [L2 S2]. apply list_eq. intros k.
    destruct (made !! k) as [m|] eqn:K1.
    2:{ apply lookup_ge_None in K1. apply lookup_ge_None. lia. }
    destruct (made2 !! k) as [m2|] eqn:K2.
    2:{ apply lookup_ge_None in K2. apply lookup_lt_Some in K1. lia. }
    f_equal. apply map_eq. intros f.
    destruct (made_holds pkgs _ _ _ _ k m G M1 K1) as (pk & P1 & H1), (made_holds pkgs _ _ _ _ k m2 G M2 K2) as (pk' & P2 & H2).
    assert (pk' = pk) as -> by congruence. destruct (H1 f) as [T1 F1], (H2 f) as [T2 F2]. destruct (ap_takes pk f) eqn:T; [|rewrite F1, F2; reflexivity].
    specialize (T1 eq_refl). specialize (T2 eq_refl).
    destruct (A1 k m K1) as (pk' & tk & P1' & Sk & Em). assert (pk' = pk) as -> by congruence.
    assert (m !! f = t1 !! f) as Mt.
    { assert (m !! f = tk !! f) as ->.
      { rewrite Em. destruct (tk !! f) as [x|] eqn:E; [apply map_filter_lookup_Some; split; [exact E|exact T]|]. apply map_filter_lookup_None. now left. }
      destruct (store_upto pkgs k _ _ S1) as (tk' & Sk' & Rest). assert (tk' = tk) as -> by congruence. symmetry.
      apply (store_keeps (concat (map ap_files (skipn (S k) pkgs)))); [|assumption|].
      - intros af I. apply in_concat in I as (l & I & Il). apply in_map_iff in I as (pj & <- & I). apply (G pj af); [|assumption]. rewrite <- (firstn_skipn (S k) pkgs). apply in_or_app. now right.
      - intros af I Fp. apply in_concat in I as (l & I & Il). apply in_map_iff in I as (pj & <- & I). apply elem_of_list_In, elem_of_list_lookup in I as [i I].
        rewrite lookup_drop in I. rewrite Fp in T. rewrite (Later k (S k + i)%nat pk pj af) in T; [discriminate|lia|assumption|assumption|assumption]. }
    apply (placed_again _ _ (added_upto pkgs k) f _ _ T1 T2).
    - destruct (m !! f) as [[c1 mo]|] eqn:E.
      + right. rewrite Hs, <- Mt. now exists (h f c1), mo; split; [|exists c1].
      + left. inversion T1 as [af c mm L S0 M E1|N E1]; [exact N].
    - intros N. inversion T1 as [af c mm L S0 M E1|N' E1]; [apply last_with_in in L as [I L]; exfalso; now apply (N af I)|].
      rewrite Hs, <- Mt, <- E1, Hs. destruct (t !! f) as [[c0 m0]|]; [|reflexivity]. now rewrite Hh.
  Qed.
End storing.
