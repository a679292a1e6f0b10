(** * Addresses in an index, and what a repository offers *)
From Coq Require Import String Ascii List Bool Lia.
From stdpp Require Import gmap strings.
From Verif Require Import Model.Py Model.Path Model.ItemByRepo Model.Package Model.ComponentDB Model.Databases Model.Index
  Spec.PathSpec Spec.ItemByRepoSpec Spec.DatabaseSpec Spec.IndexSpec Proof.PyFacts Proof.PathFacts Proof.ItemByRepoFacts Proof.ItemByRepoMain Proof.DatabaseFacts Proof.RevDepFacts Proof.SearchSystem Proof.IndexFacts.
Open Scope string_scope.
Open Scope list_scope.

(** ** Each package once *)
Lemma relative_inj p q : p <> [] -> q <> [] -> Forall good p -> Forall good q -> relative_name p = relative_name q -> p = q.
Proof.
  intros P Q GP GQ E. change (py_join "/" p = py_join "/" q) in E. assert (F : forall l, Forall good l -> Forall (fun x => ~ In slash (los x)) l).
  { intros l G. eapply Forall_impl; [exact G|]. intros x [_ K]. exact K. }
  rewrite <- (split_join slash p P (F p GP)), <- (split_join slash q Q (F q GQ)). unfold slash in *. now rewrite E.
Qed.
Lemma made_once skip nr at_ d ix : d <> "" -> well_named (at_ d) -> told_apart (at_ d) -> make_index None skip nr at_ [d] = Ok ix -> List.NoDup (map snd (m_packages ix)) /\ List.NoDup (map snd (m_specs ix)).
Proof.
  intros D W T K. assert (HD : forall x, gone_through [d] x -> x <> "" /\ well_named (at_ x)) by (intros x [[<-|[]]|[? _]]; [auto|discriminate]).
  destruct (made_lists None skip nr at_ [d] HD ix K) as (E1 & _ & E2). cbn [given_dirs all_of flat_map] in E1, E2. unfold all_of in E1, E2. cbn [flat_map] in E1, E2. rewrite app_nil_r in E1, E2.
  pose proof (paths_nodup nr _ T) as N. assert (G : forall x, In x (paths nr (at_ d)) -> x.1 <> [] /\ Forall good x.1).
  { intros [p c] I. apply paths_spec in I as [I _]. exact (file_at_good _ _ _ W I). }
  rewrite E1, E2. clear E1 E2 K.
  assert (Gen : forall {A} (f : string * (list string * content) -> list (A * string)) l,
            (forall x, f (d, x) = [] \/ exists a, f (d, x) = [(a, relative_name x.1)]) -> (forall x, In x l -> x.1 <> [] /\ Forall good x.1) -> List.NoDup (map fst l) ->
            List.NoDup (map snd (flat_map f (map (pair d) l)))).
  { clear. intros A f l F. induction l as [|x l IH]; intros G N; [constructor|]. cbn [map] in N. apply NoDup_cons_iff in N as [N1 N2]. cbn [map flat_map]. rewrite map_app.
    assert (IH' : List.NoDup (map snd (flat_map f (map (pair d) l)))) by (apply IH; [intros y I; apply G; now right|exact N2]).
    destruct (F x) as [-> | [a ->]]; [exact IH'|]. cbn [map app snd]. apply NoDup_cons_iff. split; [|exact IH']. intros K. apply in_map_iff in K as ([b u] & E & K). cbn [snd] in E. subst u.
    apply in_flat_map in K as ([d' y] & I & K). apply in_map_iff in I as (y' & E & I). injection E as <- ->. destruct (F y) as [Fy|[a' Fy]]; rewrite Fy in K; [destruct K|]. destruct K as [K|[]]. injection K as -> K.
    apply N1. apply in_map_iff. exists y. split; [|exact I]. destruct (G x) as [G1 G2]; [now left|]. destruct (G y) as [G3 G4]; [now right|]. now apply relative_inj. }
  split; apply Gen; auto; intros [p c]; unfold pk, src; cbn [fst snd].
  - destruct (py_endswith _ _); [|auto]. destruct (f_package c) as [[q []]|]; eauto.
  - destruct (_ && _); [|auto]. destruct (f_spec c); eauto.
Qed.

(** ** The address leads back *)
Lemma url_plain u : free_of "#" u -> free_of "?" u -> url_path u = u.
Proof. intros A B. unfold url_path. cbv zeta. rewrite (split_no_sep "#" u A). cbn [hd]. rewrite (split_no_sep "?" u B). reflexivity. Qed.
Lemma relative_start path : path <> [] -> Forall good path -> py_startswith (relative_name path) "/" = false.
Proof.
  intros N G. destruct path as [|n path]; [congruence|]. apply Forall_cons in G as [[G1 G2] _]. destruct n as [|a n]; [congruence|].
  destruct (py_startswith _ "/") eqn:E; [|reflexivity]. apply startswith_iff in E as [r E]. exfalso. apply G2. change (relative_name (String a n :: path)) with (py_join "/" (String a n :: path)) in E.
  destruct path as [|m path]; [cbn [py_join] in E|rewrite join_cons in E by discriminate]; injection E as -> _; now left.
Qed.
Lemma leads_back d idx path : (d = "/" \/ d <> "" /\ ~ ends_in_slash d) -> free_of "/" idx -> path <> [] -> Forall good path ->
  free_of "#" (relative_name path) -> free_of "?" (relative_name path) -> forall at_idx, stands_at d [idx] at_idx ->
  exists full, stands_at d path full /\ download_from at_idx (relative_name path) = Ok full.
Proof.
  intros D I N G F1 F2 at_idx [A1 A2]. change (relative_name [idx]) with idx in *. unfold download_from. rewrite (url_plain _ F1 F2). unfold absolute_path.
  assert (SP : splitpath (relative_name path) = path).
  { rewrite splitpath_plain.
    - change (relative_name path) with (py_join "/" path). apply (split_join slash path N). eapply Forall_impl; [exact G|]. intros x [_ K]. exact K.
    - destruct path as [|[|a n] path]; [congruence| |]; apply Forall_cons in G as [[G1 _] _]; [congruence|]. destruct path; discriminate.
    - assert (EL : forall p, p <> [] -> Forall good p -> ~ ends_in_slash (py_join "/" p)).
      { clear. induction p as [|n p IH]; intros N G; [congruence|]. apply Forall_cons in G as [G1 G2]. destruct p as [|m p]; [cbn [py_join]; apply free_no_end; apply G1|].
        rewrite join_cons by discriminate. intros K. apply ends_slash_app in K; [|discriminate]. apply ends_slash_app in K; [|apply Forall_cons in G2 as [[G2 _] _]; destruct m; [congruence|destruct p; discriminate]].
        apply IH in K; [exact K|discriminate|exact G2]. }
      exact (EL path N G). }
  rewrite SP. destruct path as [|c path0]; [congruence|]. cbn [bind]. assert (C : String.eqb c "" = false) by (apply String.eqb_neq; apply Forall_cons in G as [[G1 _] _]; exact G1). rewrite C.
  unfold os_join. rewrite (relative_start _ N G). destruct D as [->|[D E]].
  - rewrite A1 by now exists "". rewrite (dirname_top idx I). eexists. split; [|reflexivity]. split; [intros _; reflexivity|]. intros K. destruct K. now exists "".
  - rewrite A2 by exact E. rewrite (dirname_under d idx D E I). rewrite (proj2 (String.eqb_neq d "") D). cbn [orb]. destruct (py_endswith d "/") eqn:K; [apply endswith_iff in K; contradiction|].
    eexists. split; [|reflexivity]. split; [contradiction|reflexivity].
Qed.

(** ** What a repository offers *)
Fixpoint last_named (n : string) (ps : list package) : option package :=
  match ps with
  | [] => None
  | p :: ps => match last_named n ps with Some q => Some q | None => if String.eqb (p_name p) n then Some p else None end
  end.
Lemma last_named_none n ps : last_named n ps = None <-> forall q, In q ps -> p_name q <> n.
Proof.
  induction ps as [|p ps IH]; cbn [last_named]; [split; [intros _ q []|reflexivity]|]. destruct (last_named n ps) as [x|] eqn:E.
  - split; [discriminate|]. intros K. exfalso. assert (Some x = None) by (apply IH; intros q I; apply K; now right). discriminate.
  - destruct (String.eqb_spec (p_name p) n) as [E1|E1]; (split; [|]).
    + discriminate.
    + intros K. destruct (K p); [now left|exact E1].
    + intros _ q [<-|I]; [exact E1|]. now apply IH.
    + reflexivity.
Qed.
Lemma last_named_some n p ps : last_named n ps = Some p <-> exists a b, ps = a ++ p :: b /\ p_name p = n /\ forall q, In q b -> p_name q <> n.
Proof.
  split.
  - induction ps as [|x ps IH]; cbn [last_named]; [discriminate|]. destruct (last_named n ps) as [y|] eqn:E.
    + intros [= ->]. destruct (IH eq_refl) as (a & b & -> & K). exists (x :: a), b. auto.
    + destruct (String.eqb_spec (p_name x) n) as [E1|E1]; [|discriminate]. intros [= ->]. exists [], ps. split; [reflexivity|]. split; [exact E1|]. now apply last_named_none.
  - intros (a & b & -> & E & K). induction a as [|x a IH]; cbn [app last_named]; [|now rewrite IH]. rewrite (proj2 (last_named_none n b) K). apply String.eqb_eq in E. now rewrite E.
Qed.
Lemma add_packages_last q ps : place q -> forall s s', foldM (fun s p => add_package s p q) ps s = Ok s' ->
  forall n, entry (db_pkg s') n q = match last_named n ps with Some p => Some p | None => entry (db_pkg s) n q end.
Proof.
  intros Hp. induction ps as [|p ps IH]; intros s s'; cbn [foldM last_named]; [intros [= <-] n; reflexivity|]. intros H n. apply Proof.DatabaseFacts.bind_ok in H as (s1 & E & E').
  rewrite (IH s1 s' E' n). destruct (last_named n ps); [reflexivity|]. rewrite (add_package_entries _ _ _ _ Hp E) by exact Hp. destruct (String.eqb_spec (p_name p) n) as [E1|E1].
  - now rewrite bool_decide_true by auto.
  - now rewrite bool_decide_false by tauto.
Qed.
Lemma update_offers s r ix s' : inv s -> op_update_repo s r ix = Ok s' -> forall n, entry (db_pkg s') n (RName r) = last_named n (ix_packages ix).
Proof.
  intros HI. unfold op_update_repo. destruct (has_repo _ r) eqn:E; [|discriminate]. intros H n.
  destruct HI as [Hr Hs]. apply has_repo_spec in E. apply (proj2 Hr) in E. pose proof (place_name r) as Hp.
  unfold update_db in H.
  destruct (comp_remove_repo_ok _ s _ Hs Hp) as (s1 & K1 & A1 & _ & A5 & A2 & A3 & A4 & A6 & A7). rewrite K1 in H. cbn [bind] in H. inv_ok H.
  assert (B2 : shelves_ok (order_of s) v).
  { eapply (foldM_inv (shelves_ok (order_of s))); [|exact A1|exact E0].
    intros t c t' _ [] H'. inv_ok H'. injection H' as <-. constructor; simpl; auto.
    eapply update_component_good; eauto. split; [exact Hp|intros r' [= <-]; exact E]. }
  destruct (pkg_remove_repo_ok _ v _ B2 Hp) as (s2 & E' & _ & _ & _ & S1 & _). rewrite E' in E1. injection E1 as <-.
  assert (G : db_pkg s' = db_pkg v1).
  { assert (G2 : db_pkg v2 = db_pkg v1) by (unfold src_remove_repo in E3; inv_ok E3; now injection E3 as <-). rewrite <- G2.
    eapply (foldM_same db_pkg); [|exact H]. intros t c t' K. unfold add_spec in K. inv_ok K. now injection K as <-. }
  rewrite G, (add_packages_last _ _ Hp _ _ E2 n), S1 by exact Hp. rewrite bool_decide_true by reflexivity. now destruct (last_named n (ix_packages ix)).
Qed.

Lemma offers_last s r ix s' n p : reachable s -> op_update_repo s r (published ix) = Ok s' ->
  (get_package s' n (RName r) = Ok p <-> listed_last n p (map fst (m_packages ix))).
Proof.
  intros R H. apply history_inv in R. rewrite (get_package_place s' n (RName r) p (place_name r)). rewrite (update_offers _ _ _ _ R H n). exact (last_named_some n p _).
Qed.
Lemma offers_found absolute skip nr at_ dirs ix s r s' : (forall d, gone_through dirs d -> d <> "" /\ well_named (at_ d)) ->
  make_index absolute skip nr at_ dirs = Ok ix -> reachable s -> op_update_repo s r (published ix) = Ok s' ->
  (forall p q u v, package_found absolute nr at_ dirs p u -> package_found absolute nr at_ dirs q v -> p_name p = p_name q -> p = q) ->
  forall n p, get_package s' n (RName r) = Ok p <-> p_name p = n /\ exists uri, package_found absolute nr at_ dirs p uri.
Proof.
  intros HD M R H U n p. rewrite (offers_last s r ix s' n p R H). split.
  - intros (a & b & E & N & _). split; [exact N|]. assert (I : In p (map fst (m_packages ix))) by (rewrite E; apply in_elt). apply in_map_iff in I as ([p' u] & <- & I). exists u. now apply (made_packages absolute skip nr at_ dirs HD ix).
  - intros [N [u K]]. apply (made_packages absolute skip nr at_ dirs HD ix _ _ M) in K as I. apply (in_map fst) in I. cbn [fst] in I.
    assert (S : last_named n (map fst (m_packages ix)) <> None) by (intros L; exact (proj1 (last_named_none _ _) L _ I N)). destruct (last_named n (map fst (m_packages ix))) as [q|] eqn:L; [|congruence].
    apply last_named_some in L as (a & b & E & N' & Q). assert (I' : In q (map fst (m_packages ix))) by (rewrite E; apply in_elt). apply in_map_iff in I' as ([q' v] & Eq & I'). cbn [fst] in Eq. subst q'.
    apply (made_packages absolute skip nr at_ dirs HD ix _ _ M) in I'. assert (p = q) as -> by (eapply U; [exact K|exact I'|congruence]). exists a, b. auto.
Qed.
Lemma address_back skip nr at_ d ix idx at_idx p uri : (d = "/" \/ d <> "" /\ ~ ends_in_slash d) -> well_named (at_ d) ->
  make_index None skip nr at_ [d] = Ok ix -> In (p, uri) (m_packages ix) ->
  free_of "/" idx -> stands_at d [idx] at_idx -> free_of "#" uri -> free_of "?" uri ->
  exists path c full, looked_at nr (at_ d) path c /\ f_package c = Ok (p, true) /\ stands_at d path full /\ download_from at_idx uri = Ok full.
Proof.
  intros D W M I F A H1 H2. assert (HD : forall x, gone_through [d] x -> x <> "" /\ well_named (at_ x)).
  { intros x [[<-|[]]|[? _]]; [|discriminate]. split; [|exact W]. destruct D as [->|[D _]]; [discriminate|exact D]. }
  apply (made_packages None skip nr at_ [d] HD ix _ _ M) in I as (d' & path & c & G & L & E & P & U). destruct G as [[<-|[]]|[? _]]; [|discriminate]. cbn [addressed] in U. subst uri.
  destruct (file_at_good _ _ _ W (proj1 L)) as [N GD]. destruct (leads_back d idx path D F N GD H1 H2 at_idx A) as (full & S & K). exists path, c, full. auto.
Qed.
