(** * Lists of paths with wild cards *)
From Coq Require Import String Ascii List Bool Arith Lia.
From stdpp Require Import gmap strings.
From Verif Require Import Model.Py Model.Path Model.Contents Spec.PathSpec Spec.ContentsSpec Proof.PyFacts Proof.PathFacts Proof.ContentsFacts Proof.ContentsTop.
Import ListNotations.
Open Scope string_scope.

(** ** glob *)
Lemma fnmatch_iff p : forall n, fnmatch p n = true <-> fits p n.
Proof.
  induction p as [|a p IH]; intros n.
  - cbn. rewrite String.eqb_eq. split; [intros ->; constructor|intros H; now inversion H].
  - cbn [fnmatch]. destruct (Ascii.eqb_spec a "*") as [->|Na].
    + induction n as [|b n IHn].
      * rewrite orb_false_r, IH. split; [intros H; now apply (fits_star "")|]. intros H. inversion H as [|a' p' n' K| |s' p' n' H' E1 E2]. destruct s'; [|discriminate E2]. cbn in E2. now subst.
      * rewrite orb_true_iff, IH, IHn. split.
        -- intros [H|H]; [now apply (fits_star "")|]. inversion H as [|a' p' n' K| |s' p' n' H' E1 E2]; [now destruct K|]. exact (fits_star (String b s') p n' H').
        -- intros H. inversion H as [|a' p' n' K| |s' p' n' H' E1 E2]; [now destruct K|]. destruct s' as [|c s']; [cbn in E2; subst; now left|]. injection E2 as _ <-. right. now apply fits_star.
    + destruct n as [|b n].
      * split; [discriminate|]. intros H. inversion H; subst. congruence.
      * rewrite andb_true_iff, orb_true_iff, IH, !Ascii.eqb_eq. split.
        -- intros [[->| ->] H]; [now apply fits_any|now apply fits_char].
        -- intros H. inversion H; subst; [tauto|tauto|congruence].
Qed.
Lemma char_free c s : char_in c s = false <-> free_of c s.
Proof.
  unfold free_of. split.
  - intros E K. apply char_in_iff in K. congruence.
  - intros H. destruct (char_in c s) eqn:E; [|reflexivity]. apply char_in_iff in E. now destruct H.
Qed.
Lemma magic_iff p : free_of "[" p -> has_magic p = true <-> wild_name p.
Proof.
  intros F. unfold has_magic, wild_name. rewrite (proj2 (char_free _ _) F), orb_false_r, orb_true_iff.
  assert (G : forall c, char_in c p = true <-> ~ free_of c p) by (intros c; rewrite <- char_free; apply eq_sym_iff || (destruct (char_in c p); split; congruence)).
  now rewrite !G.
Qed.
Lemma hidden_iff n : py_startswith n "." = true <-> hidden n.
Proof. rewrite startswith_iff. reflexivity. Qed.
Lemma stands_magic p n : has_magic p = true -> free_of "[" p -> shown p n && fnmatch p n = true <-> stands_for p n.
Proof.
  intros M F. apply (magic_iff p F) in M. unfold shown, stands_for. rewrite andb_true_iff, orb_true_iff, negb_true_iff, fnmatch_iff, hidden_iff. split.
  - intros [H1 H2]. left. split; [exact M|]. split; [exact H2|]. intros Hn. destruct H1 as [H1|H1]; [exact H1|]. apply hidden_iff in Hn. congruence.
  - intros [(_ & H2 & H1)|[K _]]; [|contradiction]. split; [|exact H2]. destruct (py_startswith n ".") eqn:E; [left; now apply H1, hidden_iff|now right].
Qed.
Lemma stands_plain p n : has_magic p = false -> free_of "[" p -> stands_for p n <-> p = n.
Proof.
  intros M F. assert (N : ~ wild_name p) by (intros K; apply (magic_iff p F) in K; congruence). unfold stands_for. tauto.
Qed.
Lemma free_text c p : free_of c (text p) -> List.Forall (free_of c) p.
Proof.
  induction p as [|n p IH]; intros H; [constructor|]. rewrite text_cons in H. apply char_free in H. 
  assert (A : forall a b, char_in c (a ++ b) = false -> char_in c a = false /\ char_in c b = false).
  { intros a b. induction a as [|x a IHa]; [auto|]. change (String x a ++ b) with (String x (a ++ b)). cbn [char_in]. rewrite !orb_false_iff. intros [K1 K2]. destruct (IHa K2). auto. }
  apply A in H as [_ H]. apply A in H as [H1 H2]. constructor; [now apply char_free|apply IH; now apply char_free].
Qed.
Lemma glob_names_iff p : forall t, well_formed t -> List.Forall (free_of "[") p -> forall root m,
  In m (glob_names t root p) <-> exists q z, m = root ++ text q /\ matches_path p q /\ lies_at t q z.
Proof.
  induction p as [|a p IH]; intros t Wt F root m.
  - cbn. split.
    + intros [<-|[]]. exists [], t. rewrite str_app_nil_r. repeat constructor.
    + intros (q & z & -> & M & _). inversion M; subst. cbn. rewrite str_app_nil_r. now left.
  - inversion F as [|a' p' Fa Fp]; subst. cbn [glob_names]. destruct t as [c|g to|es].
    + split; [intros []|]. intros (q & z & _ & M & L). inversion M; subst. inversion L.
    + split; [intros []|]. intros (q & z & _ & M & L). inversion M; subst. inversion L.
    + inversion Wt as [| |es' Nd K]; subst. destruct (has_magic a) eqn:Ma.
      * rewrite in_flat_map. split.
        -- intros ((n & c) & I & H). cbn [fst snd] in H. destruct (shown a n && fnmatch a n) eqn:E; [|destruct H]. apply (stands_magic a n Ma Fa) in E.
           apply (IH c (proj2 (K n c I)) Fp) in H as (q & z & -> & M & L). exists (n :: q), z. split; [rewrite text_cons, !str_app_assoc; reflexivity|]. split; [now constructor|]. now apply (lies_below es n c).
        -- intros (q & z & -> & M & L). inversion M as [|a' n p' q' S M']; subst. inversion L as [|es' n' c q'' z' I L']; subst. exists (n, c). split; [exact I|]. cbn [fst snd].
           rewrite (proj2 (stands_magic a n Ma Fa) S). apply (IH c (proj2 (K n c I)) Fp). exists q', z. split; [rewrite text_cons, !str_app_assoc; reflexivity|]. now split.
      * destruct (entry_of a es) as [c|] eqn:E.
        -- apply (entry_of_iff es a c Nd) in E. rewrite (IH c (proj2 (K a c E)) Fp). split.
           ++ intros (q & z & -> & M & L). exists (a :: q), z. split; [rewrite text_cons, !str_app_assoc; reflexivity|]. split; [constructor; [now apply (stands_plain a a Ma Fa)|exact M]|]. now apply (lies_below es a c).
           ++ intros (q & z & -> & M & L). inversion M as [|a' n p' q' S M']; subst. apply (stands_plain a n Ma Fa) in S. subst n. inversion L as [|es' n' c' q'' z' I L']; subst.
              exists q', z. split; [rewrite text_cons, !str_app_assoc; reflexivity|]. split; [exact M'|]. apply (entry_of_iff es a c Nd) in E. apply (entry_of_iff es a c' Nd) in I. congruence.
        -- split; [intros []|]. intros (q & z & _ & M & L). inversion M as [|a' n p' q' S M']; subst. apply (stands_plain a n Ma Fa) in S. subst n. inversion L as [|es' n' c' q'' z' I L']; subst.
           apply (entry_of_iff es a c' Nd) in I. congruence.
Qed.

Section wild.
  Context (sha1 : string -> string) (install : string) (t : node) (Pd : proper_dir install) (W : well_formed t).
  Lemma magic_parts p : has_magic (text p) = false -> List.Forall (fun n => has_magic n = false) p.
  Proof.
    unfold has_magic. rewrite !orb_false_iff. intros [[A B] C]. apply char_free, free_text in A, B, C. rewrite List.Forall_forall in *. intros n Hn. rewrite !orb_false_iff. repeat split; apply char_free; auto.
  Qed.
  Lemma glob_iff pi p : pattern pi p -> forall m, In m (glob install t (install ++ text p)) <-> exists q z, m = install ++ text q /\ matches_path p q /\ lies_at t q z.
  Proof.
    intros (N & F & E & B) m. unfold glob. rewrite inside_text. destruct (has_magic (text p)) eqn:M.
    - rewrite names_of_text by exact F. apply glob_names_iff; [exact W|now apply free_text].
    - rewrite (node_at_text _ _ Pd) by exact F. assert (Self : forall q, matches_path p q <-> p = q).
      { apply magic_parts in M. apply free_text in B. revert M B. generalize p. clear. induction p as [|a p IH]; intros M B q.
        - split; [intros H; now inversion H|intros <-; constructor].
        - inversion M; inversion B; subst. split.
          + intros H. inversion H as [|a' n p' q' S M']; subst. apply stands_plain in S; [|assumption..]. apply IH in M'; [|assumption..]. now subst.
          + intros <-. constructor; [now apply stands_plain|now apply IH]. }
      destruct (find_node t p) as [z|] eqn:Fz.
      + apply (find_lies _ _ _ W) in Fz. split.
        * intros [<-|[]]. exists p, z. split; [reflexivity|]. split; [now apply Self|exact Fz].
        * intros (q & z' & -> & Mq & _). apply Self in Mq. subst q. now left.
      + split; [intros []|]. intros (q & z' & -> & Mq & L). apply Self in Mq. subst q. apply (find_lies _ _ _ W) in L. congruence.
  Qed.

  Context (pkgs : list (list pathinfo)) (X : all_patterns pkgs) (i : nat).
  Definition recorded' (S : list string -> Prop) (d : gmap string fileinfo) : Prop := forall key, is_Some (d !! key) <-> exists f, key = short f /\ S f.
  Lemma greatest_in l : l <> [] -> exists b, greatest l = Some b /\ In b l.
  Proof.
    induction l as [|x l IH]; [congruence|]. intros _. cbn [greatest]. destruct l as [|y l]; [exists x; split; [reflexivity|now left]|].
    destruct IH as (b & -> & I); [discriminate|]. destruct (String.leb x b); [exists b; split; [reflexivity|now right]|exists x; split; [reflexivity|now left]].
  Qed.
  Lemma type_found pi p q f x : lists pkgs i pi -> pattern pi p -> matches_path p q -> covers q f -> produced t f x -> q <> [] ->
    exists tp, get_file_type install t (short f) (nth i pkgs []) = Ok tp.
  Proof.
    intros Li Ep Mq [r ->] [Lx Px] Nq. pose proof Ep as (Np & Fp & Tp & _). assert (Ff : List.Forall good_name (q ++ r)%list) by (exact (proj1 (lies_names _ _ _ W Lx))).
    unfold get_file_type. set (ms := map pi_path _). assert (I : In (pi_path pi) ms).
    { apply in_map, filter_In. split; [now apply in_nth|]. assert (H : In (install ++ text q) (match_ install t (short (q ++ r)%list) (pi_path pi))).
      { apply filter_In. rewrite Tp. split; [apply (glob_iff pi p Ep); apply lies_split in Lx as (z & Lz & _); now exists q, z|].
        rewrite (join_short _ Pd) by (exact Ff || now destruct q). apply occurs_iff. exists "", (text r). cbn. now rewrite text_app, str_app_assoc. }
      now destruct (match_ _ _ _ _). }
    destruct (greatest_in ms) as (b & -> & Ib); [intros K; now rewrite K in I|]. apply in_map_iff in Ib as (pb & Eb & Ib). apply filter_In in Ib as [Ib _].
    assert (H : In pb (List.filter (fun pinfo => String.eqb b (pi_path pinfo)) (nth i pkgs []))) by (apply filter_In; split; [exact Ib|apply String.eqb_eq; now symmetry]).
    destruct (List.filter (fun pinfo => String.eqb b (pi_path pinfo)) (nth i pkgs [])) as [|pf rest]; [destruct H|]. now eexists.
  Qed.
  Lemma matches_nonempty p q : matches_path p q -> p <> [] -> q <> [].
  Proof. intros M N ->. inversion M. congruence. Qed.
  Notation coll := (check_path_collision i pkgs).
  Definition given' (q f : list string) : Prop := exists x h, yields sha1 t coll q f x h.
  Lemma add_one pi p q items : lists pkgs i pi -> pattern pi p -> matches_path p q -> forall S d, recorded' S d ->
    (forall path h, In (path, h) items -> exists f x, path = install ++ text f /\ covers q f /\ produced t f x) ->
    exists d', foldM (add_file install t (nth i pkgs [])) items d = Ok d' /\ recorded' (fun f => S f \/ exists h, List.Forall good_name f /\ In (install ++ text f, h) items) d'.
  Proof.
    intros Li Ep Mq. assert (Nq : q <> []) by (apply (matches_nonempty p q Mq); apply Ep). induction items as [|[path h] items IH]; intros S d R H.
    - exists d. split; [reflexivity|]. intros key. rewrite (R key). split; intros (f & E & Sf); exists f; (split; [exact E|]); [now left|]. now destruct Sf as [Sf|(h & _ & [])].
    - destruct (H path h (or_introl eq_refl)) as (f & x & -> & C & Pf). assert (Nf : f <> []) by (destruct C as [r ->]; now destruct q).
      assert (Ff : List.Forall good_name f) by (exact (proj1 (lies_names _ _ _ W (proj1 Pf)))).
      destruct (type_found pi p q f x Li Ep Mq C Pf Nq) as [tp Et]. assert (Ea : add_file install t (nth i pkgs []) d (install ++ text f, h) = Ok (<[short f := mkFileinfo tp.1 tp.2 h]> d)).
      { unfold add_file. cbn [fst snd]. rewrite <- (join_install _ Pd f Nf Ff). rewrite (removepathprefix_join install (short f) (text f) (short_relative f Nf Ff) (lstrip_text f Nf Ff)). cbn [bind]. rewrite Et. reflexivity. }
      cbn [foldM]. rewrite Ea. cbn [bind].
      destruct (IH (fun g => S g \/ g = f) (<[short f := mkFileinfo tp.1 tp.2 h]> d)) as (d' & E' & R').
      { intros key. rewrite lookup_insert_is_Some'. rewrite (R key). split.
        - intros [<-|(g & E & Sg)]; [exists f; auto|exists g; auto].
        - intros (g & -> & [Sg| ->]); [right; exists g; auto|now left]. }
      { intros path' h' I. apply (H path' h'). now right. }
      exists d'. split; [exact E'|]. intros key. rewrite (R' key). split.
      + intros (g & E & [[Sg| ->]|(h' & Fg & I)]); [exists g; auto|exists f; split; [exact E|right; exists h; split; [exact Ff|now left]]|exists g; split; [exact E|right; exists h'; split; [exact Fg|now right]]].
      + intros (g & E & [Sg|(h' & Fg & [I|I])]); [exists g; auto| |exists g; split; [exact E|right; exists h'; auto]].
        injection I as I _. exists g. split; [exact E|]. left. right. symmetry. apply text_inj; [exact Ff|exact Fg|]. apply (f_equal (py_drop (String.length install))) in I. now rewrite !drop_app in I.
  Qed.
  Lemma one_match pi p q S d ls : lists pkgs i pi -> pattern pi p -> matches_path p q -> List.Forall good_name q -> recorded' S d -> links_only t ls ->
    exists d' ls', add_path sha1 install t (nth i pkgs []) (d, (coll ++ ls)%list) (install ++ text q) = Ok (d', (coll ++ ls')%list) /\ links_only t ls' /\ recorded' (fun f => S f \/ given' q f) d'.
  Proof.
    intros Li Ep Mq Fq R Hl. unfold add_path. cbn [fst snd]. destruct (hashes_spec sha1 install t Pd W q coll ls Fq Hl) as (ls' & Sn & Hl' & Eh). cbv zeta in Sn, Eh. rewrite Sn.
    destruct (add_one pi p q (fst (get_file_hashes sha1 install t (install ++ text q) (coll ++ ls)%list)) Li Ep Mq S d R) as (d' & E & R').
    { intros path h I. apply Eh in I as (f & x & -> & Y). exists f, x. split; [reflexivity|]. split; apply Y. }
    exists d', ls'. rewrite E. split; [reflexivity|]. split; [exact Hl'|]. intros key. rewrite (R' key). split; intros (f & Ek & [Sf|H]); exists f; (split; [exact Ek|]); [now left| |now left|].
    - destruct H as (h & Ff & I). apply Eh in I as (g & x & Eg & Y). right. exists x, h. assert (f = g) as ->; [|exact Y].
      apply text_inj; [exact Ff|exact (proj1 (lies_names _ _ _ W (proj1 (proj1 Y))))|]. apply (f_equal (py_drop (String.length install))) in Eg. now rewrite !drop_app in Eg.
    - destruct H as (x & h & Y). right. exists h. split; [exact (proj1 (lies_names _ _ _ W (proj1 (proj1 Y))))|]. apply Eh. exists f, x. auto.
  Qed.
  Lemma one_pattern pi p : lists pkgs i pi -> pattern pi p -> forall ms, (forall m, In m ms -> exists q z, m = install ++ text q /\ matches_path p q /\ lies_at t q z) ->
    forall S d ls, recorded' S d -> links_only t ls ->
    exists d' ls', foldM (add_path sha1 install t (nth i pkgs [])) ms (d, (coll ++ ls)%list) = Ok (d', (coll ++ ls')%list) /\ links_only t ls' /\
      recorded' (fun f => S f \/ exists q, List.Forall good_name q /\ In (install ++ text q) ms /\ given' q f) d'.
  Proof.
    intros Li Ep. induction ms as [|m ms IH]; intros H S d ls R Hl.
    - exists d, ls. split; [reflexivity|]. split; [exact Hl|]. intros key. rewrite (R key). split; intros (f & E & Sf); exists f; (split; [exact E|]); [now left|]. now destruct Sf as [Sf|(q & _ & [] & _)].
    - destruct (H m (or_introl eq_refl)) as (q & z & -> & Mq & Lq). assert (Fq : List.Forall good_name q) by (exact (proj1 (lies_names _ _ _ W Lq))).
      destruct (one_match pi p q S d ls Li Ep Mq Fq R Hl) as (d1 & ls1 & E1 & Hl1 & R1). destruct (IH (fun m' Hm => H m' (or_intror Hm)) _ d1 ls1 R1 Hl1) as (d2 & ls2 & E2 & Hl2 & R2).
      exists d2, ls2. cbn [foldM]. rewrite E1. cbn [bind]. split; [exact E2|]. split; [exact Hl2|]. intros key. rewrite (R2 key). split.
      + intros (f & E & [[Sf|G]|(q' & F' & I & G)]); exists f; (split; [exact E|]); [now left|right; exists q; split; [exact Fq|]; split; [now left|exact G]|right; exists q'; split; [exact F'|]; split; [now right|exact G]].
      + intros (f & E & [Sf|(q' & F' & [I|I] & G)]); exists f; (split; [exact E|]); [left; now left| |right; exists q'; auto].
        left. right. assert (q = q') as ->; [|exact G]. apply text_inj; [exact Fq|exact F'|]. apply (f_equal (py_drop (String.length install))) in I. now rewrite !drop_app in I.
  Qed.
  Lemma every_pattern l : (forall pi, In pi l -> lists pkgs i pi) -> forall S d ls, recorded' S d -> links_only t ls ->
    exists d' ls', foldM (fun st pinfo => foldM (add_path sha1 install t (nth i pkgs [])) (glob install t (join_path install [pi_path pinfo])) st) l (d, (coll ++ ls)%list) = Ok (d', (coll ++ ls')%list) /\
      recorded' (fun f => S f \/ exists pi p q, In pi l /\ pattern pi p /\ matches_path p q /\ given' q f) d'.
  Proof.
    induction l as [|pi l IH]; intros Hin S d ls R Hl.
    - exists d, ls. split; [reflexivity|]. intros key. rewrite (R key). split; intros (f & E & Sf); exists f; (split; [exact E|]); [now left|]. now destruct Sf as [Sf|(pi & p & q & [] & _)].
    - assert (Li : lists pkgs i pi) by (apply Hin; now left). destruct (X i pi Li) as [p Ep]. pose proof Ep as (Np & Fp & Tp & _).
      destruct (one_pattern pi p Li Ep (glob install t (join_path install [pi_path pi]))) with (S := S) (d := d) (ls := ls) as (d1 & ls1 & E1 & Hl1 & R1); [|exact R|exact Hl|].
      { intros m Hm. rewrite Tp, (join_install _ Pd p Np Fp) in Hm. now apply (glob_iff pi p Ep) in Hm. }
      destruct (IH (fun q Hq => Hin q (or_intror Hq)) _ d1 ls1 R1 Hl1) as (d2 & ls2 & E2 & R2). exists d2, ls2. cbn [foldM]. rewrite E1. cbn [bind]. split; [exact E2|].
      intros key. rewrite (R2 key). split.
      + intros (f & E & [[Sf|(q & Fq & I & G)]|(pj & p' & q & I & K & M & G)]); exists f; (split; [exact E|]); [now left| |right; exists pj, p', q; split; [now right|auto]].
        right. exists pi, p, q. split; [now left|]. split; [exact Ep|]. split; [|exact G]. rewrite Tp, (join_install _ Pd p Np Fp) in I. apply (glob_iff pi p Ep) in I as (q' & z & Eq & M & L).
        assert (q = q') as ->; [|exact M]. apply text_inj; [exact Fq|exact (proj1 (lies_names _ _ _ W L))|]. apply (f_equal (py_drop (String.length install))) in Eq. now rewrite !drop_app in Eq.
      + intros (f & E & [Sf|(pj & p' & q & [<-|I] & K & M & G)]); exists f; (split; [exact E|]); [left; now left| |right; exists pj, p', q; auto].
        left. right. exists q. destruct G as (x & h & Y). pose proof Y as ([Lx _] & [r ->] & _). pose proof (lies_split _ _ _ _ Lx) as (z & Lz & _).
        split; [exact (proj1 (lies_names _ _ _ W Lz))|]. split; [|now exists x, h]. rewrite Tp, (join_install _ Pd p Np Fp). apply (glob_iff pi p Ep). exists q, z. split; [reflexivity|]. split; [|exact Lz].
        assert (p = p') as ->; [|exact M]. destruct K as (_ & F' & T' & _). apply text_inj; [exact Fp|exact F'|congruence].
  Qed.
  Lemma excluded_wild f : excluded coll f = true <-> begins_like_another pkgs i f.
  Proof.
    unfold excluded. rewrite existsb_exists. unfold check_path_collision. split.
    - intros (s & I & E). apply in_flat_map in I as (pi & Ipi & I). apply in_flat_map in I as (l & Il & I). apply in_flat_map in I as (pj & Ipj & I).
      destruct (subpath (pi_path pi) (pi_path pj)) eqn:Sp; [|destruct I]. destruct I as [<-|[]].
      apply in_nth in Ipi. apply (in_others sha1 install pkgs i) in Il as (j & Nj & Il). assert (Lj : lists pkgs j pj) by (exists l; now split).
      destruct (X i pi Ipi) as [p' Ep]. destruct (X j pj Lj) as [q Eq]. pose proof Ep as (Np & Fp & Tp & _). pose proof Eq as (Nq & Fq & Tq & _).
      rewrite Tp, Tq in Sp. apply subpath_text in Sp; [|assumption..]. apply startswith_iff in E as [r E]. exists j, pj, pi, q, p', r. auto 10.
    - intros (j & pj & pi & q & p' & r & Nj & (l & Hl & Ij) & Li & Eq & Ep & C & E). exists (pi_path pj).
      pose proof Ep as (Np & Fp & Tp & _). pose proof Eq as (Nq & Fq & Tq & _). split; [|apply startswith_iff; now exists r].
      apply in_flat_map. exists pi. split; [now apply in_nth|]. apply in_flat_map. exists l. split; [apply (in_others sha1 install pkgs i); now exists j|].
      apply in_flat_map. exists pj. split; [exact Ij|]. rewrite Tp, Tq. rewrite (proj2 (subpath_text p' q Np Nq Fp Fq) C). now left.
  Qed.
  Lemma wild_exact : exists d, gen_files_xml sha1 install t pkgs i = Ok d /\ forall key, is_Some (d !! key) <-> exists f, key = short f /\ belongs_wild t pkgs i f.
  Proof.
    unfold gen_files_xml. cbv zeta. destruct (every_pattern (nth i pkgs []) (fun pi H => proj1 (in_nth pkgs i pi) H) (fun _ => False) ∅ []) as (d & ls & E & R).
    - intros key. rewrite lookup_empty. split; [intros [? K]; discriminate K|intros (f & _ & [])].
    - intros s [].
    - rewrite app_nil_r in E. rewrite E. cbn [bind fst]. exists d. split; [reflexivity|]. intros key. rewrite (R key). split.
      + intros (f & Ek & [[]|(pi & p & q & I & Ep & M & x & h & Pf & C & Y)]). exists f. split; [exact Ek|]. exists x, q. split; [exact Pf|]. split; [exists pi, p; split; [now apply in_nth|auto]|]. split; [exact C|].
        destruct Y as [(-> & Nd & _)|(_ & _ & Ex)]; [left; auto|right]. intros T. apply excluded_wild in T. congruence.
      + intros (f & Ek & x & q & Pf & (pi & p & Li & Ep & M) & C & Y). exists f. split; [exact Ek|]. right. exists pi, p, q. split; [now apply in_nth|]. split; [exact Ep|]. split; [exact M|].
        destruct (decide (q = f)) as [->|Npf].
        * destruct x as [c|g to|es].
          -- exists (NFile c), (top_mark sha1 (NFile c)). split; [exact Pf|]. split; [exact C|]. left. repeat split. intros [? K]; discriminate K.
          -- exists (NLink g to), (top_mark sha1 (NLink g to)). split; [exact Pf|]. split; [exact C|]. left. repeat split. intros [? K]; discriminate K.
          -- destruct Y as [(_ & Nd)|Y]; [elim Nd; now exists es|]. exists (NDir es), None. split; [exact Pf|]. split; [exact C|]. right.
             split; [right; now exists es|]. split; [reflexivity|]. destruct (excluded coll f) eqn:Ex; [|reflexivity]. elim Y. now apply excluded_wild.
        * destruct Y as [[K _]|Y]; [congruence|]. exists x, (mark sha1 x). split; [exact Pf|]. split; [exact C|]. right. split; [now left|]. split; [reflexivity|].
          destruct (excluded coll f) eqn:Ex; [|reflexivity]. elim Y. now apply excluded_wild.
  Qed.
End wild.

Lemma wild_alone sha1 install t (Pd : proper_dir install) (W : well_formed t) pinfos (X : all_patterns [pinfos]) :
  exists d, gen_files_xml sha1 install t [pinfos] 0 = Ok d /\
    forall key, is_Some (d !! key) <-> exists f x pi p q, key = short f /\ produced t f x /\ In pi pinfos /\ pattern pi p /\ matches_path p q /\ covers q f.
Proof.
  destruct (wild_exact sha1 install t Pd W [pinfos] X 0) as (d & E & R). exists d. split; [exact E|]. intros key. rewrite (R key).
  assert (L : forall pi, lists [pinfos] 0 pi <-> In pi pinfos). { intros pi. split; [intros (l & K & I); cbn in K; congruence|intros I; now exists pinfos]. }
  split.
  - intros (f & Ek & x & q & Pf & (pi & p & Li & Ep & M) & C & _). exists f, x, pi, p, q. apply L in Li. auto 10.
  - intros (f & x & pi & p & q & Ek & Pf & I & Ep & M & C). exists f. split; [exact Ek|]. exists x, q. split; [exact Pf|]. split; [exists pi, p; split; [now apply L|auto]|]. split; [exact C|].
    right. intros (j & pj & pi' & q' & p' & r & Nj & (l & Hl & _) & _). destruct j as [|[|j]]; [now destruct Nj|discriminate Hl|discriminate Hl].
Qed.

(** For examples *)
Definition patterns_check (pkgs : list (list pathinfo)) : bool :=
  forallb (forallb (fun pi => bool_decide (pi_path pi = text (names_of (pi_path pi))) && bool_decide (names_of (pi_path pi) <> []) && negb (char_in "[" (pi_path pi)))) pkgs.
Lemma patterns_check_ok pkgs : patterns_check pkgs = true -> all_patterns pkgs.
Proof.
  unfold patterns_check. rewrite forallb_forall. intros H i pi (l & E & I). apply nth_error_In in E. specialize (H l E). rewrite forallb_forall in H. specialize (H pi I).
  apply andb_prop in H as [H H3]. apply andb_prop in H as [H1 H2]. apply bool_decide_eq_true in H1, H2. apply negb_true_iff, char_free in H3.
  exists (names_of (pi_path pi)). split; [exact H2|]. split; [apply names_of_good|]. split; [exact H1|]. now rewrite <- H1.
Qed.
