(** * The commands on repositories *)
From Coq Require Import String Ascii ZArith List Bool Lia.
From stdpp Require Import gmap strings.
From Verif Require Import Model.Py Model.Path Model.Version Model.ItemByRepo Model.Package Model.Search Model.ComponentDB Model.Databases Model.Rebuild Model.Index Model.Trace Model.Fetch Model.UpdateRepo Model.RepoCommands.
From Verif Require Import Spec.ItemByRepoSpec Spec.DatabaseSpec Spec.RepoCommandsSpec Proof.PyFacts Proof.ItemByRepoFacts Proof.ItemByRepoMain Proof.DatabaseFacts Proof.RevDepFacts Proof.TraceFacts Proof.UpdateRepoFacts.
Import ListNotations.
Open Scope string_scope.
Open Scope prog_scope.

(** ** An update leaves the other places alone *)
Definition apart {A} (q : rarg) (d d' : shelf A) : Prop := forall n q', place q' -> q' <> q -> entry d' n q' = entry d n q'.
Lemma apart_refl {A} q (d : shelf A) : apart q d d.
Proof. now intros n q' _ _. Qed.
Lemma apart_trans {A} q (d d' d'' : shelf A) : apart q d d' -> apart q d' d'' -> apart q d d''.
Proof. intros H K n q' P N. rewrite K, H by assumption. reflexivity. Qed.
Lemma add_apart {A} q (d d' : shelf A) n x : place q -> add_item d n x q = Ok d' -> apart q d d'.
Proof.
  intros P H. destruct (add_item_entry d n x q P) as (d1 & E & K). rewrite E in H. injection H as <-. intros n' q' P' N. rewrite K by exact P'. rewrite bool_decide_false; [reflexivity|]. intros [_ E']. congruence.
Qed.
Lemma fold_apart {A X} q (f : shelf A -> X -> res (shelf A)) l d d' : (forall d x d', f d x = Ok d' -> apart q d d') -> foldM f l d = Ok d' -> apart q d d'.
Proof. intros H E. eapply (foldM_inv (fun t => apart q d t)); [|apply apart_refl|exact E]. intros s x s' _ K G. eapply apart_trans; [exact K|]. eapply H. exact G. Qed.
Lemma same_but_apart {A} q (d d' : shelf A) : same_but q d d' -> apart q d d'.
Proof. intros S n q' P N. rewrite S by exact P. now rewrite bool_decide_false. Qed.

(** the six databases *)
Ltac six := split; [|split; [|split; [|split; [|split; [|intros]]]]].
Definition all_apart (q : rarg) (s s' : dbs) : Prop :=
  apart q (db_pkg s) (db_pkg s') /\ apart q (db_rev s) (db_rev s') /\ apart q (db_src s) (db_src s') /\ apart q (db_p2s s) (db_p2s s') /\ apart q (db_comp s) (db_comp s') /\
  (forall k, apart q (default ∅ (db_idx s !! k)) (default ∅ (db_idx s' !! k))).
Lemma all_apart_refl q s : all_apart q s s.
Proof. six; apply apart_refl. Qed.
Lemma all_apart_trans q s s' s'' : all_apart q s s' -> all_apart q s' s'' -> all_apart q s s''.
Proof.
  intros (A1 & A2 & A3 & A4 & A5 & A6) (B1 & B2 & B3 & B4 & B5 & B6).
  six; eapply apart_trans; eauto.
Qed.
Lemma fold_all_apart {X} q (f : dbs -> X -> res dbs) l s s' : (forall s x s', f s x = Ok s' -> all_apart q s s') -> foldM f l s = Ok s' -> all_apart q s s'.
Proof. intros H E. eapply (foldM_inv (fun t => all_apart q s t)); [|apply all_apart_refl|exact E]. intros t x t' _ K G. eapply all_apart_trans; [exact K|]. eapply H. exact G. Qed.

Lemma add_revdep_apart o d name q dep d' : place q -> add_revdep o d name q dep = Ok d' -> apart q d d'.
Proof. intros P H. unfold add_revdep in H. inv_ok H. destruct v; [inv_ok H|]; now apply add_apart in H. Qed.
Lemma comp_add_package_apart o d c p q d' : place q -> comp_add_package o d c p q = Ok d' -> apart q d d'.
Proof. intros P H. unfold comp_add_package in H. destruct c as [c|]; [|discriminate H]. destruct (truthy _); [|discriminate H]. inv_ok H. now apply add_apart in H. Qed.
Lemma comp_add_spec_apart o d c p q d' : place q -> comp_add_spec o d c p q = Ok d' -> apart q d d'.
Proof. intros P H. unfold comp_add_spec in H. destruct c as [c|]; [|discriminate H]. destruct (truthy _); [|discriminate H]. inv_ok H. now apply add_apart in H. Qed.
Lemma update_component_apart o d c q d' : place q -> update_component o d c q = Ok d' -> apart q d d'.
Proof. intros P H. unfold update_component in H. inv_ok H. destruct v; [inv_ok H|]; now apply add_apart in H. Qed.
Lemma add_doc_apart o d doc terms q d' : place q -> add_doc o d doc terms q = Ok d' -> apart q d d'.
Proof. intros P H. unfold add_doc in H. eapply fold_apart; [|exact H]. intros x t x' K. cbv beta in K. inv_ok K. now apply add_apart in K. Qed.
Lemma index_apart o id doc texts q i i' : place q -> index_texts (fun d doc terms => add_doc o d doc terms q) id doc texts i = Ok i' ->
  forall k, apart q (default ∅ (i !! k)) (default ∅ (i' !! k)).
Proof.
  intros P H k. unfold index_texts in H. eapply (foldM_inv (fun t => apart q (default ∅ (i !! k)) (default ∅ (t !! k)))); [|apply apart_refl|exact H].
  intros t [lang text] t' _ K G. cbv beta iota in G. destruct (str_in lang _); [|now injection G as <-]. inv_ok G. injection G as <-. eapply apart_trans; [exact K|].
  destruct (decide (k = (id, lang))) as [->|N]; [rewrite lookup_insert; cbn [default]; now apply add_doc_apart in E|]. rewrite lookup_insert_ne by congruence. apply apart_refl.
Qed.
Lemma add_package_apart s p q s' : place q -> add_package s p q = Ok s' -> all_apart q s s'.
Proof.
  intros P H. unfold add_package in H. inv_ok H. injection H as <-. six; cbn [set_idx set_comp set_rev set_pkg db_pkg db_rev db_src db_p2s db_comp db_idx].
  - now apply add_apart in E.
  - eapply fold_apart; [|exact E1]. intros d x d' K. now apply add_revdep_apart in K.
  - apply apart_refl.
  - apply apart_refl.
  - now apply comp_add_package_apart in E2.
  - eapply apart_trans; [eapply index_apart; [exact P|exact E3]|eapply index_apart; [exact P|exact E4]].
Qed.
Lemma add_spec_apart s sp q s' : place q -> add_spec s sp q = Ok s' -> all_apart q s s'.
Proof.
  intros P H. unfold add_spec in H. inv_ok H. injection H as <-. six; cbn [set_comp set_p2s set_src db_pkg db_rev db_src db_p2s db_comp db_idx]; try apply apart_refl.
  - now apply add_apart in E.
  - eapply fold_apart; [|exact E0]. intros d x d' K. now apply add_apart in K.
  - now apply comp_add_spec_apart in E1.
Qed.
Lemma update_db_apart order s ix repo s' : shelves_ok order s -> In repo order -> update_db s ix repo = Ok s' -> all_apart (RName repo) s s'.
Proof.
  intros Hs Hin. pose proof (place_name repo) as Hp. set (q := RName repo) in *.
  assert (Hq : okplace order q) by (split; [exact Hp|intros r [= <-]; exact Hin]).
  unfold update_db. fold q.
  destruct (comp_remove_repo_ok order s _ Hs Hp) as (s1 & Er & A1 & _ & A2 & A3 & A4 & A5 & A6 & A7). rewrite Er. cbn [bind]. intros H. inv_ok H.
  assert (I1 : db_idx s1 = db_idx s) by (unfold comp_remove_repo in Er; inv_ok Er; now injection Er as <-).
  assert (R1 : all_apart q s s1).
  { six; rewrite ?A4, ?A5, ?A6, ?A7, ?I1; try apply apart_refl. now apply same_but_apart. }
  assert (B1 : shelves_ok order v).
  { eapply (foldM_inv (shelves_ok order)); [|exact A1|exact E]. intros t c t' _ [] H'. cbv beta in H'. inv_ok H'. injection H' as <-. constructor; simpl; auto. eapply update_component_good; eauto. }
  assert (R2 : all_apart q s1 v).
  { eapply fold_all_apart; [|exact E]. intros t c t' K. cbv beta in K. inv_ok K. injection K as <-.
    six; cbn [set_comp db_pkg db_rev db_src db_p2s db_comp db_idx]; try apply apart_refl. now apply update_component_apart in E3. }
  destruct (pkg_remove_repo_ok order v _ B1 Hp) as (s2 & E' & C1 & _ & _ & C2 & C3 & C4 & C5 & C6 & C7). rewrite E' in E0. injection E0 as <-.
  assert (I2 : db_idx s2 = db_idx v) by (unfold pkg_remove_repo in E'; inv_ok E'; now injection E' as <-).
  assert (R3 : all_apart q v s2).
  { six; rewrite ?C5, ?C6, ?C7, ?I2; try apply apart_refl; now apply same_but_apart. }
  assert (D1 : shelves_ok order v1).
  { eapply (foldM_inv (shelves_ok order)); [|exact C1|exact E1]. intros t c t' _ Ht H'. eapply add_package_ok; [exact Ht|exact Hq|exact H']. }
  assert (R4 : all_apart q s2 v1) by (eapply fold_all_apart; [|exact E1]; intros t c t' K; now apply add_package_apart in K).
  destruct (src_remove_repo_ok order v1 _ D1 Hp) as (s3 & E3 & F1 & _ & _ & F2 & F3 & F4 & F5 & F6 & F7). rewrite E3 in E2. injection E2 as <-.
  assert (I3 : db_idx s3 = db_idx v1) by (unfold src_remove_repo in E3; inv_ok E3; now injection E3 as <-).
  assert (R5 : all_apart q v1 s3).
  { six; rewrite ?F5, ?F6, ?F7, ?I3; try apply apart_refl; now apply same_but_apart. }
  assert (R6 : all_apart q s3 s') by (eapply fold_all_apart; [|exact H]; intros t c t' K; now apply add_spec_apart in K).
  eapply all_apart_trans; [exact R1|]. eapply all_apart_trans; [exact R2|]. eapply all_apart_trans; [exact R3|]. eapply all_apart_trans; [exact R4|]. eapply all_apart_trans; [exact R5|exact R6].
Qed.

(** ** in the words of the specification *)
Lemma apart_spared {A} name s s' (db : dbs -> shelf A) names : In name names -> apart (RName name) (db s) (db s') -> spared names s s' db.
Proof. intros I H n q P N. rewrite !get_item_place by exact P. rewrite H; [reflexivity|exact P|]. intros ->. now apply (N name). Qed.
Lemma all_apart_spared name s s' names : In name names -> all_apart (RName name) s s' -> all_spared names s s'.
Proof. intros I (A1 & A2 & A3 & A4 & A5 & A6). six; eapply apart_spared; eauto. Qed.
Lemma all_spared_refl names s : all_spared names s s.
Proof. six; now intros. Qed.
Lemma spared_trans {A} names s s' s'' (db : dbs -> shelf A) : spared names s s' db -> spared names s' s'' db -> spared names s s'' db.
Proof. intros H K n q P N. rewrite K, H by assumption. reflexivity. Qed.
Lemma all_spared_trans names s s' s'' : all_spared names s s' -> all_spared names s' s'' -> all_spared names s s''.
Proof.
  intros (A1 & A2 & A3 & A4 & A5 & A6) (B1 & B2 & B3 & B4 & B5 & B6).
  six; eapply spared_trans; eauto.
Qed.
Lemma spared_more {A} names names' s s' (db : dbs -> shelf A) : incl names names' -> spared names s s' db -> spared names' s s' db.
Proof. intros I H n q P N. apply H; [exact P|]. intros r E K. apply (N r E). now apply I. Qed.
Lemma all_spared_more names names' s s' : incl names names' -> all_spared names s s' -> all_spared names' s s'.
Proof. intros I (A1 & A2 & A3 & A4 & A5 & A6). six; eapply spared_more; eauto. Qed.
Lemma update_spared s r ix s' : reachable s -> op_update_repo s r ix = Ok s' -> all_spared [r] s s' /\ db_repo s' = db_repo s /\ reachable s'.
Proof.
  intros R H. assert (R' : reachable s') by (apply (h_step _ s (OUpdateRepo r ix) s'); [exact R|exact Logic.I|exact H]). destruct (reachable_inv s R) as [Hr Hs]. unfold op_update_repo in H. destruct (has_repo _ r) eqn:E; [|discriminate H]. apply has_repo_spec in E. apply (proj2 Hr) in E.
  split; [|split; [|exact R']].
  - eapply all_apart_spared; [now left|]. eapply update_db_apart; eassumption.
  - now destruct (update_db_ok _ _ _ _ _ Hs E H).
Qed.

(** ** Paths *)
Lemma split_spelt cs : Forall plain_name cs -> forall p, ~ In "/"%char (los p) -> py_split "/" (p ++ spelt cs) = p :: cs.
Proof.
  induction cs as [|c cs IH]; intros H p N; cbn [spelt].
  - rewrite str_app_nil_r. now apply split_no_sep.
  - inversion H as [|? ? [_ [_ [_ Hc]]] H']; subst. change (p ++ "/" ++ c ++ spelt cs) with (p ++ String "/" (c ++ spelt cs)). rewrite split_app_sep by exact N. f_equal. now apply IH.
Qed.
Lemma steps_plain cs : Forall plain_name cs -> forall acc, fold_left step_to cs acc = (acc ++ cs)%list.
Proof.
  induction cs as [|c cs IH]; intros H acc; cbn [fold_left]; [now rewrite app_nil_r|]. inversion H as [|? ? (A & B & C & _) H']; subst.
  unfold step_to at 2. apply String.eqb_neq in A, B, C. rewrite A, B, C. cbn [orb]. rewrite IH by exact H'. now rewrite <- app_assoc.
Qed.
Lemma leads_spelt cs : Forall plain_name cs -> leads (spelt cs) = cs.
Proof. intros H. unfold leads. pose proof (split_spelt cs H "" (fun K => K)) as E. change ("" ++ spelt cs) with (spelt cs) in E. rewrite E. cbn [fold_left]. change (step_to [] "") with (@nil string). now apply steps_plain. Qed.
Lemma spelt_app a b : spelt (a ++ b) = spelt a ++ spelt b.
Proof. induction a as [|c a IH]; [reflexivity|]. cbn [app spelt]. rewrite IH. now rewrite !str_app_assoc. Qed.
Lemma spelt_end ds d : Forall plain_name (ds ++ [d]) -> py_endswith (spelt (ds ++ [d])) "/" = false.
Proof.
  intros H. destruct (py_endswith _ _) eqn:E; [exfalso|reflexivity]. apply endswith_iff in E as [r E]. rewrite spelt_app in E. cbn [spelt] in E. rewrite str_app_nil_r in E.
  apply Forall_app in H as [_ H]. inversion H as [|? ? (A & _ & _ & B) _]; subst. apply (f_equal los) in E. rewrite !los_app in E. cbn [los list_ascii_of_string app] in E.
  apply (f_equal (fun l => List.last l " "%char)) in E. rewrite last_last in E. rewrite !last_app in E.
  assert (K : forall (y x : ascii) l, In (List.last (x :: l) y) (x :: l)) by (clear; intros y x l; revert x; induction l as [|z l IH]; intros x; [now left|]; right; apply IH).
  destruct d as [|x d]; [now apply A|]. cbn [los list_ascii_of_string] in E, B. apply B. pose proof (K (List.last (los (spelt ds)) " "%char) x (los d)) as G. change (List.last ("/"%char :: x :: los d) (List.last (los (spelt ds)) " "%char)) with (List.last (x :: los d) (List.last (los (spelt ds)) " "%char)) in E. rewrite E in G. exact G.
Qed.
Lemma join_spelt ds n : ds <> [] -> Forall plain_name ds -> plain_name n -> os_join (spelt ds) n = spelt (ds ++ [n]).
Proof.
  intros D H (A & _ & _ & B). unfold os_join. destruct (py_startswith n "/") eqn:S.
  { apply startswith_iff in S as [r ->]. elim B. now left. }
  destruct ds as [|d ds _] using rev_ind; [now elim D|]. rewrite spelt_end by exact H. rewrite (spelt_app (ds ++ [d]) [n]). cbn [spelt]. rewrite (str_app_nil_r n).
  destruct (String.eqb_spec (spelt (ds ++ [d])) "") as [E|_]; [|reflexivity]. rewrite spelt_app in E. cbn [spelt] in E. destruct (spelt ds); discriminate E.
Qed.
Lemma starts_iff l : forall m, starts l m = true <-> exists r, m = (l ++ r)%list.
Proof.
  induction l as [|x l IH]; intros m; cbn [starts].
  - split; [exists m; reflexivity|reflexivity].
  - destruct m as [|y m]; [split; [discriminate|intros [r K]; discriminate K]|]. rewrite andb_true_iff, String.eqb_eq, IH. split.
    + intros [-> [r ->]]. now exists r.
    + intros [r K]. injection K as -> ->. split; [reflexivity|now exists r].
Qed.

(** rmtree in a tidy file system *)
Lemma rmtree_does ds n f : ds <> [] -> Forall plain_name ds -> plain_name n -> tidy f -> f !! spelt (ds ++ [n]) = None ->
  let p := rmtree (os_join (spelt ds) n) in
  result p f = Ok tt /\ tidy (final p f) /\ (forall r, Forall plain_name r -> final p f !! spelt (ds ++ n :: r) = None) /\
  (forall q, final p f !! q = f !! q \/ ((exists r, q = spelt (ds ++ n :: r)) /\ final p f !! q = None)) /\ (forall x, In x (states p f) -> x = f \/ x = final p f).
Proof.
  intros D H Hn T N p. assert (Hd : Forall plain_name (ds ++ [n])) by (apply Forall_app; auto). assert (L : leads (os_join (spelt ds) n) = (ds ++ [n])%list) by (rewrite join_spelt by assumption; now apply leads_spelt).
  assert (E : p f = Trace.change (fun f : files => filter (fun pc => starts (ds ++ [n])%list (leads (fst pc)) = false) f) f).
  { unfold p, rmtree. rewrite ask_eq, L. destruct (existsb _ _) eqn:X; [exfalso|reflexivity]. apply existsb_exists in X as ([q c] & I & B). apply elem_of_list_In, elem_of_map_to_list in I. cbn [fst] in B. apply bool_decide_eq_true in B.
    destruct (T q c I) as (cs & Hc & _ & ->). rewrite leads_spelt in B by exact Hc. subst cs. congruence. }
  assert (G : forall q, final p f !! q = (if starts (ds ++ [n])%list (leads q) then None else f !! q)).
  { intros q. unfold final. rewrite E. cbn. destruct (starts (ds ++ [n])%list (leads q)) eqn:S.
    - apply map_filter_lookup_None. right. intros c _. cbn [fst]. congruence.
    - destruct (f !! q) as [c|] eqn:F; [now apply map_filter_lookup_Some|apply map_filter_lookup_None; now left]. }
  split; [unfold result; now rewrite E|]. split; [|split; [|split]].
  - intros q c K. rewrite G in K. destruct (starts _ _); [discriminate K|]. exact (T q c K).
  - intros r Hr. rewrite G. rewrite leads_spelt by (apply Forall_app; auto). assert (starts (ds ++ [n])%list (ds ++ n :: r)%list = true) as -> by (apply starts_iff; exists r; now rewrite <- app_assoc). reflexivity.
  - intros q. rewrite G. destruct (f !! q) as [c|] eqn:F; [|left; now destruct (starts _ _)]. destruct (T q c F) as (cs & Hc & _ & ->). rewrite leads_spelt by exact Hc.
    destruct (starts (ds ++ [n])%list cs) eqn:S; [right|now left]. apply starts_iff in S as [r ->]. split; [|reflexivity]. exists r. now rewrite <- app_assoc.
  - intros x I. unfold states, final in *. rewrite E in *. cbn in *. destruct I as [<-|[<-|[]]]; auto.
Qed.

(** ** One after the other *)
Lemma each_app {S A} (f : A -> prog S unit) a b s : each f (a ++ b)%list s = andthen (each f a) (fun _ => each f b) s.
Proof.
  revert s. induction a as [|x a IH]; intros s; cbn [app each].
  - unfold andthen, ret. cbn [List.last]. now destruct (each f b s).
  - unfold andthen at 1 2 3. destruct (f x s) as [t [[]|e]]; [|reflexivity]. rewrite IH. unfold andthen. destruct (each f a (List.last t s)) as [t' [[]|e]]; [|reflexivity].
    rewrite last_app. destruct (each f b _) as [t'' r]. now rewrite app_assoc.
Qed.
Lemma each_ok {S A} (f : A -> prog S unit) a b s : result (each f (a ++ b)%list) s = Ok tt ->
  result (each f a) s = Ok tt /\ result (each f b) (final (each f a) s) = Ok tt /\ final (each f (a ++ b)%list) s = final (each f b) (final (each f a) s).
Proof.
  unfold result at 1, final at 2. rewrite each_app. intros H. apply (andthen_result (each f a) (fun _ => each f b) s tt) in H as ([] & A1 & A2 & A3). split; [exact A1|]. split; [exact A2|]. exact A3.
Qed.
Lemma each_fails {S A} (f : A -> prog S unit) l s e : result (each f l) s = Err e ->
  exists pre bad post, l = (pre ++ bad :: post)%list /\ result (each f pre) s = Ok tt /\ result (f bad) (final (each f pre) s) = Err e /\ final (each f l) s = final (f bad) (final (each f pre) s).
Proof.
  revert s. induction l as [|x l IH]; intros s H; [discriminate H|]. cbn [each] in H. apply andthen_raises in H as [[H F]|([] & E & R & F)].
  - exists [], x, l. auto.
  - destruct (IH _ R) as (pre & bad & post & -> & A1 & A2 & A3). exists (x :: pre), bad, post. split; [reflexivity|]. cbn [each].
    pose proof (andthen_final (f x) (fun _ => each f pre) s tt E) as G. rewrite G. split; [|split; [exact A2|]].
    + unfold result. rewrite (andthen_ok _ _ s tt E). exact A1.
    + cbn [app each]. rewrite F. exact A3.
Qed.

Section commands.
  Context (server : string -> option string) (net : string -> files -> transfer) (parse : string -> uri) (mirrors : string -> list string)
    (authinfo : bool) (dir_writable writable : string -> bool) (sha1 : string -> string) (bunzip2 : string -> option string) (fuel : nat).
  Context (index_dir : string) (read_index : string -> option pindex) (gpg_verify : files -> string -> bool).
  Notation update := (update_repo server net parse mirrors authinfo dir_writable writable sha1 bunzip2 fuel index_dir read_index gpg_verify).
  Notation updates := (update_command server net parse mirrors authinfo dir_writable writable sha1 bunzip2 fuel index_dir read_index gpg_verify).
  Notation adds := (add_command server net parse mirrors authinfo dir_writable writable sha1 bunzip2 fuel index_dir read_index gpg_verify).

  Lemma update_moves r force s x : In x (states (update r force) s) -> m_dbs x = m_dbs s \/ exists ix, op_update_repo (m_dbs s) r ix = Ok (m_dbs x).
  Proof.
    destruct (rd_infos (db_repo (m_dbs s)) !! r) as [u|] eqn:E.
    2: { unfold states. rewrite (update_unknown server net parse mirrors authinfo dir_writable writable sha1 bunzip2 fuel index_dir read_index gpg_verify r force s E). cbn. intros [<-|[]]. now left. }
    destruct (same_at _ _ s (update_is server net parse mirrors authinfo dir_writable writable sha1 bunzip2 fuel index_dir read_index gpg_verify r force s u E)) as (-> & _ & _).
    intros H. pose proof (reading_quiet server net parse mirrors authinfo dir_writable writable sha1 bunzip2 fuel index_dir read_index u r force) as Q.
    apply andthen_states in H as [H|(got & _ & H)]; [left; now apply Q|]. pose proof (quiet_final _ s Q) as F.
    destruct got as [ix|]; cbn [entering] in H; [|destruct H as [<-|[]]; left; exact F].
    apply andthen_states in H as [H|([] & _ & H)].
    - left. rewrite <- F. exact (quiet_files _ _ _ H).
    - match goal with H : In x (states (enter r ix) ?m) |- _ => assert (m_dbs m = m_dbs s) as M by (rewrite (quiet_final _ _ (quiet_files _)); exact F) end.
      apply enter_moves in H as [->|(_ & _ & H)]; [left; exact M|]. right. exists ix. rewrite M in H. unfold op_update_repo. assert (has_repo (db_repo (m_dbs s)) r = true) as -> by (apply has_repo_spec; eauto). exact H.
  Qed.
  Lemma update_one r force s x : reachable (m_dbs s) -> In x (states (update r force) s) -> all_spared [r] (m_dbs s) (m_dbs x) /\ db_repo (m_dbs x) = db_repo (m_dbs s) /\ reachable (m_dbs x).
  Proof.
    intros R H. apply update_moves in H as [->|[ix H]]; [split; [apply all_spared_refl|auto]|]. now apply (update_spared _ r ix).
  Qed.
  Lemma update_each force l : forall s x, reachable (m_dbs s) -> In x (states (each (fun r => update r force) l) s) ->
    all_spared l (m_dbs s) (m_dbs x) /\ db_repo (m_dbs x) = db_repo (m_dbs s) /\ reachable (m_dbs x).
  Proof.
    induction l as [|r l IH]; intros s x R H; cbn [each] in H.
    - destruct H as [<-|[]]. split; [apply all_spared_refl|auto].
    - apply andthen_states in H as [H|([] & _ & H)].
      + destruct (update_one r force s x R H) as (A & B & C). split; [|auto]. eapply all_spared_more; [|exact A]. intros y [<-|[]]. now left.
      + destruct (update_one r force s _ R (final_state _ s)) as (A & B & C). destruct (IH _ _ C H) as (A' & B' & C'). split; [|split; [congruence|exact C']].
        eapply all_spared_trans; [eapply all_spared_more; [|exact A]|eapply all_spared_more; [|exact A']]; intros y; [intros [<-|[]]; now left|now right].
  Qed.
  Definition targets (names : list string) (s : machine) : list string := match names with [] => order_of (m_dbs s) | _ => names end.
  Lemma updates_is names force s : updates names force s = each (fun r => update r force) (targets names s) s.
  Proof. unfold update_command. now rewrite ask_eq. Qed.
  (** the first update that fails is the last one tried *)
  Lemma update_stops names force s e : reachable (m_dbs s) -> result (updates names force) s = Err e ->
    exists pre bad post, targets names s = (pre ++ bad :: post)%list /\ result (each (fun r => update r force) pre) s = Ok tt /\
      result (update bad force) (final (each (fun r => update r force) pre) s) = Err e /\
      m_dbs (final (updates names force) s) = m_dbs (final (each (fun r => update r force) pre) s) /\ all_spared pre (m_dbs s) (m_dbs (final (updates names force) s)).
  Proof.
    intros R. destruct (same_at _ _ s (updates_is names force s)) as (_ & -> & ->). intros H. destruct (each_fails _ _ _ _ H) as (pre & bad & post & E & A & B & C).
    exists pre, bad, post. split; [exact E|]. split; [exact A|]. split; [exact B|].
    assert (M : m_dbs (final (each (fun r => update r force) (targets names s)) s) = m_dbs (final (each (fun r => update r force) pre) s)).
    { rewrite C. exact (proj2 (update_whole server net parse mirrors authinfo dir_writable writable sha1 bunzip2 fuel index_dir read_index gpg_verify bad force _) e B). }
    split; [exact M|]. rewrite M. exact (proj1 (update_each force pre s _ R (final_state _ s))).
  Qed.
  Lemma update_in_turn names force s : result (updates names force) s = Ok tt -> forall pre r post, targets names s = (pre ++ r :: post)%list ->
    let before := final (each (fun r => update r force) pre) s in
    result (update r force) before = Ok tt /\ final (updates names force) s = final (each (fun r => update r force) post) (final (update r force) before).
  Proof.
    destruct (same_at _ _ s (updates_is names force s)) as (_ & -> & ->). intros H pre r post E before. rewrite E in H. destruct (each_ok _ _ _ _ H) as (A & B & C). fold before in B, C. cbn [each] in B, C.
    apply andthen_result in B as ([] & B1 & B2 & B3). split; [exact B1|]. rewrite E, C. exact B3.
  Qed.

  (** ** Adding *)
  Lemma add_one_is n u at_ s : reachable (m_dbs s) -> let ok := ~ In n (order_of (m_dbs s)) /\ match at_ with None => True | Some z => (0 <= z <= Z.of_nat (length (order_of (m_dbs s))))%Z end in
    (ok /\ exists d, op_add_repo (m_dbs s) n u at_ = Ok d /\ add_one n u at_ s = ([mkMachine (m_files s) d], Ok tt)) \/ (~ ok /\ exists e, add_one n u at_ s = ([], Err e)).
  Proof.
    intros R ok. pose proof (op_add_repo_possible (m_dbs s) n u at_ R) as P. unfold add_one. rewrite ask_eq. destruct (op_add_repo (m_dbs s) n u at_) as [d|e] eqn:E.
    - left. split; [apply P; eauto|]. exists d. split; reflexivity.
    - right. split; [intros K; apply P in K as [d K]; discriminate K|]. exists e. reflexivity.
  Qed.
  Lemma set_repo_spared s rd names : all_spared names s (set_repo s rd).
  Proof. six; intros ? q P _; rewrite !get_item_place by exact P; reflexivity. Qed.
  Lemma adds_states n u at_ yes s x : reachable (m_dbs s) -> In x (states (adds [n; u] at_ yes) s) ->
    x = s \/
    (~ In n (order_of (m_dbs s)) /\ all_spared [n] (m_dbs s) (m_dbs x) /\ rd_infos (db_repo (m_dbs x)) = <[n := u]> (rd_infos (db_repo (m_dbs s))) /\
     (yes = false -> m_files x = m_files s) /\
     match at_ with
     | None => order_of (m_dbs x) = (order_of (m_dbs s) ++ [n])%list
     | Some z => exists pre post, order_of (m_dbs s) = (pre ++ post)%list /\ z = Z.of_nat (length pre) /\ order_of (m_dbs x) = (pre ++ n :: post)%list
     end).
  Proof.
    intros R H. cbn [add_command] in H. destruct (add_one_is n u at_ s R) as [([N _] & d & E & A)|(_ & e & A)].
    - assert (R' : reachable d) by (apply (h_step _ (m_dbs s) (OAddRepo n u at_) d); [exact R|exact Logic.I|exact E]).
      destruct (op_add_repo_result _ _ _ _ _ R E) as (I & S1 & O).
      assert (F : final (add_one n u at_) s = mkMachine (m_files s) d) by (unfold final; now rewrite A).
      assert (G : x = s \/ (all_spared [n] d (m_dbs x) /\ db_repo (m_dbs x) = db_repo d /\ (yes = false -> m_files x = m_files s))).
      { apply andthen_states in H as [H|([] & _ & H)].
        - unfold states in H. rewrite A in H. destruct H as [<-|[<-|[]]]; [now left|]. right. split; [apply all_spared_refl|]. auto.
        - right. rewrite F in H. destruct yes.
          + destruct (update_one n false (mkMachine (m_files s) d) x R' H) as (B1 & B2 & _). cbn [m_dbs] in *. split; [exact B1|]. split; [exact B2|discriminate].
          + destruct H as [<-|[]]. cbn [m_dbs m_files]. split; [apply all_spared_refl|auto]. }
      destruct G as [->|(G1 & G2 & G3)]; [now left|]. right. split; [exact N|]. split; [|split; [|split; [exact G3|]]].
      + eapply all_spared_trans; [|exact G1]. rewrite S1. apply set_repo_spared.
      + rewrite G2. exact I.
      + unfold order_of in *. rewrite G2. exact O.
    - unfold states in H. unfold andthen in H. rewrite A in H. destruct H as [<-|[]]. now left.
  Qed.
  Lemma adds_final n u at_ yes s : reachable (m_dbs s) ->
    let ok := ~ In n (order_of (m_dbs s)) /\ match at_ with None => True | Some z => (0 <= z <= Z.of_nat (length (order_of (m_dbs s))))%Z end in
    (~ ok -> exists e, adds [n; u] at_ yes s = ([], Err e)) /\
    (ok -> final (adds [n; u] at_ yes) s <> s /\ (yes = false -> result (adds [n; u] at_ yes) s = Ok tt)).
  Proof.
    intros R ok. cbn [add_command]. destruct (add_one_is n u at_ s R) as [(Y & d & E & A)|(Y & e & A)].
    - split; [intros K; now elim K|]. intros _. assert (F : final (add_one n u at_) s = mkMachine (m_files s) d) by (unfold final; now rewrite A).
      assert (Q : result (add_one n u at_) s = Ok tt) by (unfold result; now rewrite A).
      assert (R' : reachable d) by (apply (h_step _ (m_dbs s) (OAddRepo n u at_) d); [exact R|exact Logic.I|exact E]).
      destruct (op_add_repo_result _ _ _ _ _ R E) as (I & _ & _).
      split.
      + rewrite (andthen_final _ _ s tt Q). rewrite F. intros K. assert (db_repo (m_dbs s) = db_repo d) as B.
        { destruct yes; [|rewrite <- K; reflexivity]. rewrite <- K. exact (proj1 (proj2 (update_one n false (mkMachine (m_files s) d) _ R' (final_state _ _)))). }
        rewrite <- B in I. apply (f_equal (fun i => i !! n)) in I. rewrite lookup_insert in I. destruct Y as [Y _]. apply Y. destruct (reachable_inv _ R) as [Hr _]. apply (proj2 Hr). exists u. exact I.
      + intros ->. unfold result. rewrite (andthen_ok _ _ s tt Q). reflexivity.
    - split; [|intros K; now elim Y]. intros _. exists e. unfold andthen. now rewrite A.
  Qed.
End commands.

(** ** Removing *)
Lemma remove_idx s n s' : remove_repo s n = Ok s' -> db_idx s' = db_idx s.
Proof.
  unfold remove_repo, pkg_remove_repo, src_remove_repo, comp_remove_repo. intros H. inv_ok H. repeat match goal with H : Ok _ = Ok _ |- _ => injection H as <- end. inv_ok E0. inv_ok E1. repeat match goal with H : Ok _ = Ok _ |- _ => injection H as <- end. reflexivity.
Qed.
Lemma gone_spared {A} s s' n (db : dbs -> shelf A) : gone_only s s' n db -> spared [n] s s' db.
Proof. intros [_ H] k q P N. apply H; [exact P|]. intros ->. apply (N n); [reflexivity|now left]. Qed.
Lemma unlisted {A} s n k (db : dbs -> shelf A) : good (order_of s) (db s) -> ~ In n (order_of s) -> missing (get_item (order_of s) (db s) k (RName n)).
Proof. intros [_ G] N. apply entry_missing; [apply place_name|]. destruct (entry (db s) k (RName n)) eqn:E; [|reflexivity]. elim N. apply (G k). eauto. Qed.

Section removing.
  Context (ds : list string) (Dn : ds <> []) (Dp : Forall plain_name ds).
  Notation remove := (remove_one (spelt ds)).
  Notation removes := (remove_command (spelt ds)).
  Definition fits (names : list string) (s : machine) : Prop :=
    reachable (m_dbs s) /\ tidy (m_files s) /\ forall n, In n names -> In n (order_of (m_dbs s)) -> plain_name n /\ m_files s !! spelt (ds ++ [n]) = None.
  Record lessened (names : list string) (s x : machine) : Prop := mkLess {
    l_reach : reachable (m_dbs x);
    l_tidy : tidy (m_files x);
    l_spared : all_spared names (m_dbs s) (m_dbs x);
    l_files : forall q, m_files x !! q = m_files s !! q \/
      exists n r, q = spelt (ds ++ n :: r) /\ In n names /\ In n (order_of (m_dbs s)) /\ ~ In n (order_of (m_dbs x)) /\ m_files x !! q = None;
    l_order : forall n, In n (order_of (m_dbs x)) -> In n (order_of (m_dbs s))
  }.
  Lemma less_refl names s : fits names s -> lessened names s s.
  Proof. intros (R & T & _). constructor; auto using all_spared_refl. Qed.
  Lemma less_more names names' s x : incl names names' -> lessened names s x -> lessened names' s x.
  Proof.
    intros I [A B C D E]. constructor; auto. { eapply all_spared_more; eassumption. }
    intros q. destruct (D q) as [K|(n & r & K1 & K2 & K3)]; [now left|]. right. exists n, r. auto.
  Qed.
  Lemma less_trans names s x y : lessened names s x -> lessened names x y -> lessened names s y.
  Proof.
    intros [A B C D E] [A' B' C' D' E']. constructor; auto. { eapply all_spared_trans; eassumption. }
    intros q. destruct (D' q) as [K|(n & r & K1 & K2 & K3 & K4 & K5)].
    - rewrite K. destruct (D q) as [G|(n & r & K1 & K2 & K3 & K4 & K5)]; [now left|]. right. exists n, r. repeat split; auto.
    - right. exists n, r. repeat split; auto.
  Qed.
  Lemma less_fits names names' s x : incl names names' -> fits names' s -> lessened names' s x -> fits names x.
  Proof.
    intros I (R & T & P) [A B C D E]. split; [exact A|]. split; [exact B|]. intros n N O. destruct (P n (I n N) (E n O)) as [P1 P2]. split; [exact P1|].
    destruct (D (spelt (ds ++ [n]))) as [->|(n' & r & _ & _ & _ & _ & ->)]; auto.
  Qed.
  Lemma remove_one_known n s : fits [n] s -> In n (order_of (m_dbs s)) ->
    result (remove n) s = Ok tt /\ (forall x, In x (states (remove n) s) -> lessened [n] s x) /\
    order_of (m_dbs (final (remove n) s)) = List.filter (fun r => negb (String.eqb r n)) (order_of (m_dbs s)) /\
    (forall r, Forall plain_name r -> m_files (final (remove n) s) !! spelt (ds ++ n :: r) = None).
  Proof.
    intros Ft I. pose proof Ft as (R & T & P). destruct (P n (or_introl eq_refl) I) as [Pn Fn]. destruct (reachable_inv _ R) as [Hr Hs].
    destruct (system_remove_repo _ n R I) as (d & E & O & G1 & G2 & G3 & G4 & G5).
    assert (R' : reachable d) by (apply (h_step _ (m_dbs s) (ORemoveRepo n) d); [exact R|exact Logic.I|exact E]).
    unfold op_remove_repo in E. destruct (has_repo _ n) eqn:Hn; [|exfalso; assert (has_repo (db_repo (m_dbs s)) n = true) by (apply has_repo_spec, (proj2 Hr), I); congruence].
    set (after := mkMachine (m_files s) d). destruct (rmtree_does ds n (m_files s) Dn Dp Pn T Fn) as (B1 & B2 & B3 & B4 & B5). set (rm := rmtree (os_join (spelt ds) n)) in *. cbv zeta in *.
    assert (X : remove n s = (_ <~ Trace.change (fun s => mkMachine (m_files s) d) ;; on_files rm) s) by (unfold remove_one; rewrite ask_eq, Hn, E; reflexivity).
    destruct (same_at _ _ s X) as (Xs & Xf & Xr).
    assert (Nd : ~ In n (order_of d)) by (rewrite O, filter_In, String.eqb_refl; intros [_ [=]]).
    assert (Od : forall m, In m (order_of d) -> In m (order_of (m_dbs s))) by (intros m; rewrite O, filter_In; tauto).
    assert (Sp : all_spared [n] (m_dbs s) d).
    { six; try (apply gone_spared; assumption). intros k q Pq _. rewrite !get_item_place by exact Pq. now rewrite (remove_idx _ _ _ E). }
    assert (Fin : final (remove n) s = mkMachine (final rm (m_files s)) d).
    { rewrite Xf. rewrite (andthen_final (Trace.change _) _ s tt eq_refl). change (final (Trace.change (fun s => mkMachine (m_files s) d)) s) with after. now rewrite on_files_final. }
    split; [|split; [|split]].
    - rewrite Xr. unfold result at 1. rewrite (andthen_ok (Trace.change _) _ s tt eq_refl). change (result (on_files rm) after = Ok tt). now rewrite on_files_result.
    - intros x. rewrite Xs. intros H.
      assert (C : x = s \/ (m_dbs x = d /\ (m_files x = m_files s \/ m_files x = final rm (m_files s)))).
      { apply andthen_states in H as [H|([] & _ & H)].
        - destruct H as [<-|[<-|[]]]; [now left|]. right. auto.
        - change (In x (states (on_files rm) after)) in H. apply on_files_states in H as [H1 H2]. right. split; [exact H1|]. now apply B5. }
      destruct C as [->|[C1 C2]]; [now apply less_refl|]. constructor; rewrite ?C1; auto.
      + destruct C2 as [->| ->]; auto.
      + intros q. destruct C2 as [->| ->]; [now left|]. destruct (B4 q) as [K|[[r ->] K]]; [now left|]. right. exists n, r. repeat split; auto. now left.
    - rewrite Fin. exact O.
    - rewrite Fin. exact B3.
  Qed.
  Lemma remove_one_unknown n s : reachable (m_dbs s) -> ~ In n (order_of (m_dbs s)) -> remove n s = ([], Ok tt).
  Proof.
    intros R N. unfold remove_one. rewrite ask_eq. destruct (has_repo _ n) eqn:Hn; [|reflexivity]. elim N. destruct (reachable_inv _ R) as [Hr _]. apply has_repo_spec in Hn. now apply (proj2 Hr).
  Qed.
  Lemma filter_twice (f g : string -> bool) l : List.filter f (List.filter g l) = List.filter (fun x => g x && f x) l.
  Proof. induction l as [|x l IH]; [reflexivity|]. cbn. destruct (g x); cbn; [destruct (f x); now rewrite IH|exact IH]. Qed.
  Lemma filter_all (f : string -> bool) l : (forall x, In x l -> f x = true) -> List.filter f l = l.
  Proof. induction l as [|x l IH]; intros H; [reflexivity|]. cbn. rewrite H by now left. f_equal. apply IH. intros y Y. apply H. now right. Qed.
  Lemma removes_do names : forall s, fits names s ->
    result (removes names) s = Ok tt /\ (forall x, In x (states (removes names) s) -> lessened names s x) /\
    order_of (m_dbs (final (removes names) s)) = List.filter (fun r => negb (str_in r names)) (order_of (m_dbs s)) /\
    (forall n r, In n names -> In n (order_of (m_dbs s)) -> Forall plain_name r -> m_files (final (removes names) s) !! spelt (ds ++ n :: r) = None).
  Proof.
    induction names as [|n names IH]; intros s Ft.
    - split; [reflexivity|]. split; [intros x [<-|[]]; now apply less_refl|]. split; [|intros n r []]. cbn. symmetry. now apply filter_all.
    - assert (Ft1 : fits [n] s) by (destruct Ft as (R & T & P); split; [exact R|]; split; [exact T|]; intros m [<-|[]]; apply P; now left).
      assert (I1 : incl [n] (n :: names)) by (intros y [<-|[]]; now left). assert (I2 : incl names (n :: names)) by (intros y K; now right).
      assert (H : result (remove n) s = Ok tt /\ (forall x, In x (states (remove n) s) -> lessened [n] s x) /\
        order_of (m_dbs (final (remove n) s)) = List.filter (fun r => negb (String.eqb r n)) (order_of (m_dbs s)) /\
        (forall r, In n (order_of (m_dbs s)) -> Forall plain_name r -> m_files (final (remove n) s) !! spelt (ds ++ n :: r) = None)).
      { destruct (in_dec string_dec n (order_of (m_dbs s))) as [I|N].
        - destruct (remove_one_known n s Ft1 I) as (A & B & C & D). auto.
        - assert (X : remove n s = ([], Ok tt)) by (apply remove_one_unknown; [apply Ft|exact N]). unfold result, final, states. rewrite X. cbn [fst snd List.last]. split; [reflexivity|]. split; [intros x [<-|[]]; now apply less_refl|].
          split; [|intros r K; now elim N]. symmetry. apply filter_all. intros y Y. destruct (String.eqb_spec y n) as [->|_]; [now elim N|reflexivity]. }
      destruct H as (A & B & C & D). set (s1 := final (remove n) s) in *. assert (L1 : lessened (n :: names) s s1) by (eapply less_more; [exact I1|]; apply B, final_state).
      assert (Ft2 : fits names s1) by (eapply less_fits; [exact I2|exact Ft|exact L1]). destruct (IH s1 Ft2) as (A' & B' & C' & D').
      assert (Fin : final (removes (n :: names)) s = final (removes names) s1) by (unfold remove_command; cbn [each]; now rewrite (andthen_final (remove n) _ s tt A)).
      split; [|split; [|split]].
      + unfold remove_command. cbn [each]. unfold result. rewrite (andthen_ok (remove n) _ s tt A). exact A'.
      + intros x H. unfold remove_command in H. cbn [each] in H. apply andthen_states in H as [H|([] & _ & H)].
        * eapply less_more; [exact I1|]. now apply B.
        * fold s1 in H. eapply less_trans; [exact L1|]. eapply less_more; [exact I2|]. now apply B'.
      + rewrite Fin, C', C, filter_twice. apply filter_ext. intros r. cbn [str_in existsb]. unfold str_in. cbn [existsb]. destruct (String.eqb r n); cbn; [reflexivity|]. reflexivity.
      + intros m r Im Om Hr. rewrite Fin. destruct Im as [->|Im].
        * pose proof (l_files _ _ _ (B' _ (final_state _ s1)) (spelt (ds ++ m :: r))) as [K|(_ & _ & _ & _ & _ & _ & K)]; [|exact K]. unfold remove_command in *. rewrite K. now apply D.
        * destruct (in_dec string_dec m (order_of (m_dbs s1))) as [I|N]; [now apply D'|]. assert (m = n) as ->.
          { rewrite C in N. destruct (String.eqb_spec m n) as [E|E]; [exact E|]. elim N. apply filter_In. split; [exact Om|]. apply String.eqb_neq in E. now rewrite E. }
          pose proof (l_files _ _ _ (B' _ (final_state _ s1)) (spelt (ds ++ n :: r))) as [K|(_ & _ & _ & _ & _ & _ & K)]; [|exact K]. unfold remove_command in *. rewrite K. now apply D.
  Qed.
  Lemma removed_missing names s n k : fits names s -> In n names -> let d := m_dbs (final (removes names) s) in
    missing (get_item (order_of d) (db_pkg d) k (RName n)) /\ missing (get_item (order_of d) (db_rev d) k (RName n)) /\ missing (get_item (order_of d) (db_src d) k (RName n)) /\
    missing (get_item (order_of d) (db_p2s d) k (RName n)) /\ missing (get_item (order_of d) (db_comp d) k (RName n)).
  Proof.
    intros Ft I d. destruct (removes_do names s Ft) as (_ & B & C & _). pose proof (l_reach _ _ _ (B _ (final_state _ s))) as R. fold d in R, C. destruct (reachable_inv _ R) as [_ []].
    assert (N : ~ In n (order_of d)) by (rewrite C, filter_In, (proj2 (str_in_iff n names) I); intros [_ K]; discriminate K).
    split; [now apply (unlisted d n k db_pkg)|]. split; [now apply (unlisted d n k db_rev)|]. split; [now apply (unlisted d n k db_src)|]. split; [now apply (unlisted d n k db_p2s)|now apply (unlisted d n k db_comp)].
  Qed.
End removing.
