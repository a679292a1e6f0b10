(** * Updating a repository *)
From Coq Require Import String Ascii ZArith List Bool.
From stdpp Require Import gmap strings.
From Verif Require Import Model.Py Model.Path Model.Version Model.Package Model.ComponentDB Model.Databases Model.Rebuild Model.Trace Model.Fetch Model.UpdateRepo.
From Verif Require Import Spec.RebuildSpec Spec.FetchSpec Spec.PublishSpec Spec.UpdateRepoSpec Proof.PyFacts Proof.TraceFacts Proof.FetchFacts Proof.ObtainFacts Proof.PublishFacts.
Import ListNotations.
Open Scope string_scope.
Open Scope prog_scope.

Lemma on_files_result {A} (p : prog files A) s : result (on_files p) s = result p (m_files s).
Proof. unfold result, on_files. now destruct (p (m_files s)). Qed.
Lemma on_files_final {A} (p : prog files A) s : final (on_files p) s = mkMachine (final p (m_files s)) (m_dbs s).
Proof.
  unfold final, on_files. destruct (p (m_files s)) as [t r]. cbn [fst]. destruct t as [|x t _] using rev_ind; [now destruct s|].
  rewrite map_app. cbn [map]. now rewrite !last_last.
Qed.
Lemma on_files_states {A} (p : prog files A) s x : In x (states (on_files p) s) -> m_dbs x = m_dbs s /\ In (m_files x) (states p (m_files s)).
Proof.
  unfold states, on_files. destruct (p (m_files s)) as [t r]. cbn [fst]. intros [<-|H]; [split; [reflexivity|now left]|].
  apply in_map_iff in H as (f & <- & I). split; [reflexivity|now right].
Qed.
Lemma try_result {S A} (p q : prog S A) c s a : result (try_except p c q) s = Ok a ->
  (result p s = Ok a /\ final (try_except p c q) s = final p s) \/
  exists e, result p s = Err e /\ c e = true /\ result q (final p s) = Ok a /\ final (try_except p c q) s = final q (final p s).
Proof.
  unfold try_except, result, final. destruct (p s) as [t [b|e]]; cbn [fst snd]; [now left|]. destruct (c e) eqn:C; [|discriminate].
  intros H. right. exists e. destruct (q (List.last t s)) as [t' r] eqn:Q. cbn [fst snd] in *. rewrite last_app. auto.
Qed.
Lemma try_caught {S A} (p q : prog S A) c s e : result p s = Err e -> c e = true ->
  result (try_except p c q) s = result q (final p s) /\ final (try_except p c q) s = final q (final p s).
Proof.
  unfold try_except, result, final. destruct (p s) as [t [b|e']]; cbn [fst snd]; [discriminate|]. intros H. injection H as ->. intros ->.
  destruct (q (List.last t s)) as [t' r]. cbn [fst snd]. now rewrite last_app.
Qed.
Lemma try_ok {S A} (p q : prog S A) c s a : result p s = Ok a -> try_except p c q s = p s.
Proof. unfold try_except, result. destruct (p s) as [t r]. cbn. now intros ->. Qed.

(** ** The databases do not move *)
Definition quiet {A} (p : prog machine A) : Prop := forall s x, In x (states p s) -> m_dbs x = m_dbs s.
Lemma quiet_final {A} (p : prog machine A) s : quiet p -> m_dbs (final p s) = m_dbs s.
Proof. intros Q. apply Q, final_state. Qed.
Lemma quiet_files {A} (p : prog files A) : quiet (on_files p).
Proof. intros s x H. now apply on_files_states in H. Qed.
Lemma quiet_ret {A} (a : A) : quiet (ret a).
Proof. intros s x [<-|[]]. reflexivity. Qed.
Lemma quiet_then {A B} (p : prog machine A) (q : A -> prog machine B) : quiet p -> (forall a, quiet (q a)) -> quiet (andthen p q).
Proof.
  intros P Q s x H. apply andthen_states in H as [H|(a & _ & H)]; [now apply P|]. rewrite (Q a _ _ H). now apply quiet_final.
Qed.
Lemma quiet_try {A} (p q : prog machine A) c : quiet p -> quiet q -> quiet (try_except p c q).
Proof.
  intros P Q s x. unfold states, try_except. specialize (P s). specialize (Q (List.last (fst (p s)) s)). pose proof (P _ (final_state p s)) as F. unfold final, states in *.
  destruct (p s) as [t [a|e]]; cbn [fst] in *; [apply P|]. destruct (c e); [|apply P]. destruct (q (List.last t s)) as [t' r]. cbn [fst] in *.
  intros [<-|H]; [reflexivity|]. apply in_app_iff in H as [H|H]; [apply P; now right|]. rewrite <- F. apply Q. now right.
Qed.

Section update.
  Context (server : string -> option string) (net : string -> files -> transfer) (parse : string -> uri) (mirrors : string -> list string)
    (authinfo : bool) (dir_writable writable : string -> bool) (sha1 : string -> string) (bunzip2 : string -> option string) (fuel : nat).
  Context (index_dir tmp_dir : string) (read_index : string -> option pindex) (gpg_verify : files -> string -> bool).
  Notation get := (download server net parse mirrors authinfo dir_writable writable sha1 bunzip2 fuel).
  Notation get_with := (download_with server net parse mirrors authinfo dir_writable writable sha1 bunzip2 fuel).
  Notation read_of := (read_uri_of_repo server net parse mirrors authinfo dir_writable writable sha1 bunzip2 fuel index_dir read_index).
  Notation read := (read_uri server net parse mirrors authinfo dir_writable writable sha1 bunzip2 fuel read_index).
  Notation check := (check_signature server net parse mirrors authinfo dir_writable writable sha1 bunzip2 fuel index_dir gpg_verify).
  Notation update := (update_repo server net parse mirrors authinfo dir_writable writable sha1 bunzip2 fuel index_dir read_index gpg_verify).
  Notation rebuild := (rebuild_repo server net parse mirrors authinfo dir_writable writable sha1 bunzip2 fuel index_dir tmp_dir read_index).
  Notation place repo := (repo_dir index_dir repo).

  Definition reading (u repo : string) (force : bool) : prog machine (option pindex) :=
    try_except (ix <~ on_files (read_of u repo false) ;; ret (Some ix)) is_already
      (if force then ix <~ on_files (read_of u repo true) ;; ret (Some ix) else ret None).
  Definition entering (u repo : string) (got : option pindex) : prog machine unit :=
    match got with None => ret tt | Some ix => _ <~ on_files (check u repo) ;; enter repo ix end.
  Lemma update_is repo force s u : rd_infos (db_repo (m_dbs s)) !! repo = Some u -> update repo force s = andthen (reading u repo force) (entering u repo) s.
  Proof. intros E. unfold update_repo. rewrite ask_eq, E. reflexivity. Qed.
  Lemma update_unknown repo force s : rd_infos (db_repo (m_dbs s)) !! repo = None -> update repo force s = ([], Err EError).
  Proof. intros E. unfold update_repo. rewrite ask_eq, E. reflexivity. Qed.

  Lemma reading_quiet u repo force : quiet (reading u repo force).
  Proof.
    apply quiet_try; [|destruct force]; try apply quiet_ret; (apply quiet_then; [apply quiet_files|]); intros ix; apply quiet_ret.
  Qed.
  Lemma enter_moves repo ix s x : In x (states (enter repo ix) s) ->
    x = s \/ (x = final (enter repo ix) s /\ result (enter repo ix) s = Ok tt /\ update_db (m_dbs s) ix repo = Ok (m_dbs x)).
  Proof.
    unfold states, final, result, enter. rewrite ask_eq. destruct (update_db (m_dbs s) ix repo) as [d|e] eqn:E.
    - cbn. intros [<-|[<-|[]]]; [now left|right]. auto.
    - cbn. intros [<-|[]]. now left.
  Qed.
  Lemma enter_fails repo ix s e : result (enter repo ix) s = Err e -> final (enter repo ix) s = s.
  Proof. unfold final, result, enter. rewrite ask_eq. destruct (update_db (m_dbs s) ix repo) as [d|e']; [discriminate|reflexivity]. Qed.
  Lemma enter_ok repo ix s : result (enter repo ix) s = Ok tt -> m_files (final (enter repo ix) s) = m_files s /\ update_db (m_dbs s) ix repo = Ok (m_dbs (final (enter repo ix) s)).
  Proof. unfold final, result, enter. rewrite ask_eq. destruct (update_db (m_dbs s) ix repo) as [d|e']; [now split|discriminate]. Qed.

  (** Nothing or all: a quiet part, then the entry *)
  Lemma last_step {A} (p : prog machine A) (sel : A -> option pindex) repo s : quiet p ->
    let q := andthen p (fun a => match sel a with None => ret tt | Some ix => enter repo ix end) in
    (forall x, In x (states q s) -> m_dbs x = m_dbs s \/ (x = final q s /\ result q s = Ok tt)) /\
    (forall e, result q s = Err e -> m_dbs (final q s) = m_dbs s).
  Proof.
    intros Q q. split.
    - intros x H. apply andthen_states in H as [H|(a & E & H)]; [left; now apply Q|]. destruct (sel a) as [ix|] eqn:Sa.
      + apply enter_moves in H as [->|(-> & R & _)]; [left; now apply quiet_final|]. right.
        pose proof (andthen_final p (fun a => match sel a with None => ret tt | Some ix => enter repo ix end) s a E) as F. fold q in F. cbv beta in F. rewrite Sa in F. split; [symmetry; exact F|].
        unfold result, q. rewrite (andthen_ok p _ s a E), Sa. exact R.
      + destruct H as [<-|[]]. left. now apply quiet_final.
    - intros e H. unfold q in H |- *. apply andthen_raises in H as [[_ ->]|(a & E & R & ->)]; [now apply quiet_final|]. destruct (sel a); [|discriminate R]. rewrite (enter_fails _ _ _ _ R). now apply quiet_final.
  Qed.
  Lemma then_assoc {S A B C} (p : prog S A) (q : A -> prog S B) (r : B -> prog S C) s : andthen (andthen p q) r s = andthen p (fun a => andthen (q a) r) s.
  Proof.
    unfold andthen. destruct (p s) as [t [a|e]]; [|reflexivity]. destruct (q a (List.last t s)) as [t' [b|e]]; [|reflexivity].
    rewrite last_app. destruct (r b _) as [t'' x]. now rewrite app_assoc.
  Qed.
  Lemma same_at {S A} (p q : prog S A) s : p s = q s -> states p s = states q s /\ final p s = final q s /\ result p s = result q s.
  Proof. intros E. unfold states, final, result. now rewrite E. Qed.

  Lemma update_whole repo force s :
    (forall x, In x (states (update repo force) s) -> m_dbs x = m_dbs s \/ (x = final (update repo force) s /\ result (update repo force) s = Ok tt)) /\
    (forall e, result (update repo force) s = Err e -> m_dbs (final (update repo force) s) = m_dbs s).
  Proof.
    destruct (rd_infos (db_repo (m_dbs s)) !! repo) as [u|] eqn:E.
    2: { unfold states, final, result. rewrite (update_unknown repo force s E). cbn. split; [|reflexivity]. intros x [<-|[]]. now left. }
    set (p := got <~ reading u repo force ;; match got with None => ret None | Some ix => _ <~ on_files (check u repo) ;; ret (Some ix) end).
    assert (update repo force s = andthen p (fun a : option pindex => match a with None => ret tt | Some ix => enter repo ix end) s) as Eq.
    { rewrite (update_is repo force s u E). unfold p. rewrite then_assoc. unfold andthen at 1 2. destruct (reading u repo force s) as [t [got|e]]; [|reflexivity].
      destruct got as [ix|]; [|reflexivity]. cbn [entering]. rewrite then_assoc. unfold andthen. destruct (on_files _ _) as [t' [[]|e]]; [|reflexivity]. unfold ret. cbn [List.last]. match goal with |- context [enter repo ix ?y] => now destruct (enter repo ix y) as [t'' r] end. }
    destruct (same_at _ _ s Eq) as (-> & -> & ->). apply (last_step p (fun a => a)).
    apply quiet_then; [apply reading_quiet|]. intros [ix|]; [|apply quiet_ret]. apply quiet_then; [apply quiet_files|]. intros []. apply quiet_ret.
  Qed.
  Lemma rebuild_whole repo s :
    (forall x, In x (states (rebuild repo) s) -> m_dbs x = m_dbs s \/ (x = final (rebuild repo) s /\ result (rebuild repo) s = Ok tt)) /\
    (forall e, result (rebuild repo) s = Err e -> m_dbs (final (rebuild repo) s) = m_dbs s).
  Proof.
    unfold rebuild_repo. unfold states, final, result. rewrite ask_eq. destruct (rd_infos (db_repo (m_dbs s)) !! repo) as [u|] eqn:E.
    2: { cbn. split; [|reflexivity]. intros x [<-|[]]. now left. }
    rewrite <- then_assoc. apply (last_step _ (fun a => a)).
    apply quiet_then; [apply quiet_files|]. intros []. apply quiet_try; [|apply quiet_ret]. apply quiet_then; [apply quiet_files|]. intros ix. apply quiet_ret.
  Qed.

  (** ** What is read *)
  Lemma copy_same v dir k m cp : is_remote_file v = true -> get v dir k m cp = get v dir k m false.
  Proof. intros R. unfold download, download_with, obtain. rewrite R. reflexivity. Qed.
  Notation note repo u f := (<[ join_path2 (place repo) "uri" := u ]> f).
  Lemma put_twice {A} (p u : string) (q : prog files A) f : let q' := (_ <~ write p "" ;; _ <~ write p u ;; q) in result q' f = result q (<[ p := u ]> f) /\ final q' f = final q (<[ p := u ]> f).
  Proof.
    assert (<[ p := u ]> (<[ p := "" ]> f) = <[ p := u ]> f) as E by apply insert_insert.
    unfold result, final, write, change, andthen. cbn [List.last]. rewrite E. destruct (q _) as [t r]. cbn. split; [reflexivity|].
    destruct t as [|x t _] using rev_ind; [reflexivity|]. rewrite last_last. destruct (t ++ [x])%list eqn:K; [now destruct t|]. rewrite <- K. now rewrite last_last.
  Qed.
  Lemma read_inv u repo force f ix : result (read_of u repo force) f = Ok ix ->
    exists path x, let g := get (parse u) (place repo) (negb force) (Some Auto) true in
    result g (note repo u f) = Ok path /\ final g (note repo u f) !! path = Some x /\ read_index x = Some ix /\ final (read_of u repo force) f = final g (note repo u f).
  Proof.
    unfold read_uri_of_repo. destruct (put_twice (join_path2 (place repo) "uri") u (read u (place repo) force) f) as [-> ->]. unfold read_uri. intros H. apply andthen_result in H as (path & H & K & ->).
    set (g := get (parse u) (place repo) (negb force) (Some Auto) true) in *. exists path. unfold result, final in K |- *. rewrite ask_eq in K |- *. unfold final in *.
    destruct (_ !! path) as [x|]; [|discriminate K]. destruct (read_index x) as [ix'|] eqn:E; [|discriminate K]. injection K as <-. exists x. auto.
  Qed.
  Lemma read_raises u repo force f e : result (read_of u repo force) f = Err e -> e <> EError ->
    let g := get (parse u) (place repo) (negb force) (Some Auto) true in result g (note repo u f) = Err e /\ final (read_of u repo force) f = final g (note repo u f).
  Proof.
    unfold read_uri_of_repo. destruct (put_twice (join_path2 (place repo) "uri") u (read u (place repo) force) f) as [-> ->]. unfold read_uri. intros H N. apply andthen_raises in H as [[H ->]|(path & H & K & _)]; [now split|].
    exfalso. unfold result in K. rewrite ask_eq in K. destruct (_ !! path) as [x|]; [|injection K as <-; now apply N]. destruct (read_index x) as [ix'|]; [discriminate K|]. injection K as <-. now apply N.
  Qed.
  Lemma not_part v dir d : join_path2 d "uri" <> partial v dir.
  Proof. unfold partial. change (join_path2 d "uri") with (join_path2 d ("" ++ "uri")). rewrite join_suffix by discriminate. apply (ends_differ _ _ "ur" ".par" "i" "t"); [eexists; reflexivity|eexists; reflexivity|discriminate]. Qed.

  Section news.
    Context (g : files) (site : uri) (packed : bool) (u repo : string).
    Notation v := (parse u).
    Context (s : machine).
    Notation news_ := (fun checked => news sha1 bunzip2 read_index checked g site packed repo).
    Notation whole := (get v (place repo) true (Some Auto) true).
    Notation bare := (get v (place repo) false (Some Auto) true).
    Notation f0 := (note repo u (m_files s)).
    Definition old_news (f : files) : Prop := exists c, f !! destination v (place repo) = Some c /\ attested sha1 g site packed c.
    Definition sound : Prop :=
      (forall path, result whole f0 = Ok path -> exists c x, g !! shelf site packed = Some c /\ attested sha1 g site packed c /\ unpacked bunzip2 packed c x /\ final whole f0 !! path = Some x) /\
      (result whole f0 = Err EAlreadyHave -> old_news f0 /\
        forall path, result bare (note repo u (final whole f0)) = Ok path -> exists c x, g !! shelf site packed = Some c /\ unpacked bunzip2 packed c x /\ final bare (note repo u (final whole f0)) !! path = Some x).
    Context (Sd : sound).

    Lemma entering_ok got x : m_dbs x = m_dbs s -> result (entering u repo got) x = Ok tt ->
      match got with None => m_dbs (final (entering u repo got) x) = m_dbs s | Some ix => update_db (m_dbs s) ix repo = Ok (m_dbs (final (entering u repo got) x)) end.
    Proof.
      intros E H. destruct got as [ix|]; [|exact E]. cbn [entering] in *. apply andthen_result in H as ([] & H & K & ->).
      destruct (enter_ok _ _ _ K) as [_ R]. rewrite on_files_final in R at 1. cbn [m_dbs] in R. now rewrite E in R.
    Qed.
    Lemma reading_ok force got : result (reading u repo force) s = Ok got ->
      (exists ix, got = Some ix /\ exists c x, g !! shelf site packed = Some c /\ unpacked bunzip2 packed c x /\ read_index x = Some ix /\ attested sha1 g site packed c) \/
      (force = false /\ got = None /\ old_news f0) \/
      (force = true /\ exists ix, got = Some ix /\ exists c x, g !! shelf site packed = Some c /\ unpacked bunzip2 packed c x /\ read_index x = Some ix).
    Proof.
      destruct Sd as [S1 S2]. unfold reading. intros H. apply try_result in H as [[H _]|(e & H & C & K & _)].
      - left. apply andthen_result in H as (ix & H & E & _). injection E as <-. exists ix. split; [reflexivity|]. rewrite on_files_result in H.
        apply read_inv in H as (path & x & R & F & I & _). cbn [negb] in *. destruct (S1 path R) as (c & x' & A1 & A2 & A3 & A4). assert (x' = x) as -> by congruence. exists c, x. auto.
      - right. destruct e; try discriminate C. apply andthen_raises in H as [[H F0]|(ix & _ & H & _)]; [|discriminate H]. rewrite F0 in K. rewrite on_files_result in H. rewrite on_files_final in K. apply read_raises in H as [H F]; [|discriminate].
        cbn [negb] in *. destruct (S2 H) as [O S3]. destruct force.
        + right. split; [reflexivity|]. apply andthen_result in K as (ix & K & E & _). injection E as <-. exists ix. split; [reflexivity|]. rewrite on_files_result in K. cbn [m_files] in K. rewrite F in K.
          apply read_inv in K as (path & x & R & G & I & _). cbn [negb] in *. destruct (S3 path R) as (c & x' & B1 & B2 & B3). assert (x' = x) as -> by congruence. exists c, x. auto.
        + left. injection K as <-. auto.
    Qed.
    Lemma update_news force : rd_infos (db_repo (m_dbs s)) !! repo = Some u -> result (update repo force) s = Ok tt ->
      let s' := final (update repo force) s in
      news_ true (m_dbs s) (m_dbs s') \/ (force = false /\ m_dbs s' = m_dbs s /\ old_news f0) \/ (force = true /\ news_ false (m_dbs s) (m_dbs s')).
    Proof.
      intros E R. destruct (same_at _ _ s (update_is repo force s u E)) as (_ & -> & Er). rewrite Er in R. clear Er. apply andthen_result in R as (got & R & K & ->). cbv zeta.
      pose proof (entering_ok got _ (quiet_final _ s (reading_quiet u repo force)) K) as M. set (s' := final (entering u repo got) _) in *.
      destruct (reading_ok force got R) as [(ix & -> & c & x & A1 & A2 & A3 & A4)|[(-> & -> & O)|(-> & ix & -> & c & x & A1 & A2 & A3)]].
      - left. exists c, x, ix. split; [exact A1|]. split; [exact A2|]. split; [exact A3|]. split; [exact M|]. intros _. exact A4.
      - right. left. auto.
      - right. right. split; [reflexivity|]. exists c, x, ix. repeat split; auto. discriminate.
    Qed.
  End news.

  (** A repository on a server *)
  Lemma sound_server g site packed u repo s : visits server parse g site (parse u) packed (place repo) (m_files s) -> unpacks (Some Auto) packed (destination (parse u) (place repo)) -> sound g site packed u repo s.
  Proof.
    intros V U. set (v := parse u) in *.
    assert (visits server parse g site v packed (place repo) (note repo u (m_files s))) as V' by (destruct V as [A B C D E [F G]]; constructor; auto; split; rewrite lookup_insert_ne; auto using not_part).
    assert (is_remote_file v = true) as Rm by (unfold is_remote_file; now rewrite (proj1 (v_remote _ _ _ _ _ _ _ _ V))).
    unfold sound. fold v. rewrite !(copy_same v _ _ _ true Rm). split.
    - intros path R. destruct (visit_text server net parse mirrors authinfo dir_writable writable sha1 bunzip2 fuel (place repo) g site v packed _ V' (Some Auto) path U R) as (c & sum & line & x & A1 & A2 & A3 & A4 & A5 & A6).
      exists c, x. repeat split; auto. exists sum, line. auto.
    - intros H. destruct (visit_already server net parse mirrors authinfo dir_writable writable sha1 bunzip2 fuel (place repo) g site v packed _ V' (Some Auto) H) as (c & sum & line & A1 & A2 & A3 & A4 & A5 & A6).
      split; [exists c; split; [exact A1|]; exists sum, line; auto|]. intros path R.
      change (get v (place repo) false (Some Auto) false) with (get_with v (place repo) None (Some Auto) false) in R |- *.
      destruct (take_text server net parse mirrors authinfo dir_writable writable sha1 bunzip2 fuel (place repo) g site v packed _ V' (note repo u (final (get v (place repo) true (Some Auto) false) (note repo u (m_files s)))) None (Some Auto) path U) as (c' & x' & B1 & _ & B2 & B3); [rewrite lookup_insert_ne by apply not_part; exact A3|exact R|].
      exists c', x'. auto.
  Qed.

  (** A repository on this machine *)
  Lemma copy_ok a b (f : files) : result (copy a b) f = Ok tt -> exists c, f !! a = Some c /\ final (copy a b) f = <[ b := c ]> f.
  Proof.
    unfold copy, result, final. rewrite !ask_eq. destruct (f !! a) as [c|]; [|discriminate]. intros _. exists c. split; [reflexivity|]. unfold andthen, write, change. cbn. apply insert_insert.
  Qed.
  Lemma local_sum w dir (f : files) p : is_local_file w = true -> result (get_with w dir None None false) f = Ok p ->
    exists t, f !! u_uri w = Some t /\ final (get_with w dir None None false) f !! p = Some t /\ (forall q, q <> join_path2 dir (basename (u_uri w)) -> final (get_with w dir None None false) f !! q = f !! q).
  Proof.
    intros L H. unfold download_with in *. apply andthen_result in H as (l & H & K & ->). unfold result in K. rewrite ask_eq in K. cbn in K. injection K as <-.
    set (o := obtain _ _ _ _ _ _ _ _ _ _ _ _ _) in *. match goal with |- context [final ?q (final o f)] => change (final q (final o f)) with (final o f) end.
    unfold o in *. clear o. unfold obtain, is_remote_file in *. rewrite L in *. cbn [negb orb] in *. unfold result in H. rewrite ask_eq in H. unfold final. rewrite ask_eq. unfold exists_ in *.
    destruct (f !! u_uri w) as [t|] eqn:E; [|rewrite bool_decide_false in H by (intros [? K]; discriminate K); discriminate H]. rewrite bool_decide_true in * by eauto. cbn [negb] in *.
    exists t. split; [reflexivity|]. destruct (writable (u_uri w)); [injection H as <-; now split|].
    set (q := _ <~ copy _ _ ;; _) in *. change (snd (q f)) with (result q f) in H. change (List.last (fst (q f)) f) with (final q f). unfold q in *. apply andthen_result in H as ([] & H & K & ->). injection K as <-.
    destruct (copy_ok _ _ _ H) as (c & Ec & Fc). rewrite E in Ec. injection Ec as <-. change (final (ret ?a) ?b) with b. rewrite Fc. split; [apply lookup_insert|]. intros q' N. apply lookup_insert_ne. congruence.
  Qed.
  Lemma local_take w dir h packed (f : files) path : is_local_file w = true -> unpacks (Some Auto) packed (destination w dir) -> result (get_with w dir h (Some Auto) true) f = Ok path ->
    exists c x, f !! u_uri w = Some c /\ (forall line, h = Some line -> sha1 c = line) /\ unpacked bunzip2 packed c x /\ final (get_with w dir h (Some Auto) true) f !! path = Some x.
  Proof.
    intros L U H. unfold download_with in *. apply andthen_result in H as (l & H & K & ->). set (g1 := final (obtain _ _ _ _ _ _ _ _ _ _ _ _ _) f) in *.
    assert (l = destination w dir /\ exists c, f !! u_uri w = Some c /\ g1 !! l = Some c) as (-> & c & Ec & Eg).
    { unfold g1, obtain, is_remote_file in *. rewrite L in *. cbn [negb orb] in *. unfold result in H. rewrite ask_eq in H. unfold final. rewrite ask_eq.
      destruct (match h with Some _ => _ | None => _ end); [discriminate H|]. set (q := _ <~ copy _ _ ;; _) in *. change (snd (q f)) with (result q f) in H. change (List.last (fst (q f)) f) with (final q f). unfold q in *.
      apply andthen_result in H as ([] & H & K' & ->). injection K' as <-. split; [reflexivity|]. destruct (copy_ok _ _ _ H) as (c & Ec & Fc). exists c. split; [exact Ec|]. change (final (ret ?a) ?b) with b. rewrite Fc. apply lookup_insert. }
    exists c. unfold result in K. rewrite ask_eq in K. unfold final. rewrite ask_eq. rewrite Eg in *.
    assert (exists x, (forall line, h = Some line -> sha1 c = line) /\ result (decompress bunzip2 (destination w dir) (Some Auto)) g1 = Ok path /\ x = c) as (_ & Hh & D & _).
    { exists c. destruct h as [line|]; [|split; [discriminate|now split]]. destruct (String.eqb_spec (sha1 c) line) as [El|El]; [|discriminate K]. split; [intros ? E; injection E as <-; exact El|now split]. }
    assert (forall x, final (decompress bunzip2 (destination w dir) (Some Auto)) g1 !! path = Some x -> List.last (fst ((match h with Some h0 => if negb (String.eqb (sha1 c) h0) then raise EError else decompress bunzip2 (destination w dir) (Some Auto) | None => decompress bunzip2 (destination w dir) (Some Auto) end) g1)) g1 !! path = Some x) as Fin.
    { intros x Hx. destruct h as [line|]; [|exact Hx]. rewrite (Hh line eq_refl), String.eqb_refl. exact Hx. }
    unfold unpacked. destruct (decompress_ok bunzip2 _ _ _ _ _ Eg D) as [(W & -> & F)|(W & _ & d & Ed & F)]; unfold unpacks in U; destruct packed.
    - exfalso. destruct W as [W|(_ & W & _)], U as [U|(U & W')]; try discriminate U; try discriminate W. now apply W.
    - exists c. repeat split; auto. apply Fin. now rewrite F.
    - exists d. repeat split; auto. apply Fin. rewrite F. apply lookup_insert.
    - exfalso. destruct U as [U|(_ & U & _)], W as [W|(W & W')]; try discriminate W; try discriminate U. now apply U.
  Qed.
  Lemma sound_local g site packed u repo s : browses parse g site (parse u) packed (place repo) (m_files s) -> unpacks (Some Auto) packed (destination (parse u) (place repo)) -> sound g site packed u repo s.
  Proof.
    intros [[L L'] [Sh Sh'] [H1 H2] [N1 N2] [N3 N4]] U. set (v := parse u) in *. set (f := note repo u (m_files s)). unfold sound. fold v f.
    assert (f !! shelf site packed = g !! shelf site packed /\ f !! (shelf site packed ++ ".sha1sum") = g !! (shelf site packed ++ ".sha1sum")) as [E1 E2] by (unfold f; rewrite !lookup_insert_ne by assumption; now split).
    destruct (get_inv server net parse mirrors authinfo dir_writable writable sha1 bunzip2 fuel v (place repo) (Some Auto) true f) as [(e & E & N)|(sumfile & text & line & R & T & Ls & Eq & Fi & _)].
    { split; [intros path K|intros K]; congruence. }
    rewrite Eq, Fi. change (get (parse (u_uri v ++ ".sha1sum")) (place repo) false None false) with (get_with (parse (u_uri v ++ ".sha1sum")) (place repo) None None false) in *.
    destruct (local_sum _ (place repo) f sumfile L' R) as (t & T1 & T2 & T3). set (f1 := final (get_with (parse (u_uri v ++ ".sha1sum")) (place repo) None None false) f) in *. rewrite T2 in T. injection T as ->.
    rewrite Sh' in T1, T3. rewrite E2 in T1. split.
    - intros path K. destruct (local_take v (place repo) (Some line) packed f1 path L U K) as (c & x & A1 & A2 & A3 & A4). rewrite Sh, T3, E1 in A1 by congruence. exists c, x. repeat split; auto. exists text, line. auto.
    - intros K. pose proof K as K'. apply with_already in K' as [F1 (line' & c & Kl & D & Sc)]. injection Kl as <-. rewrite T3 in D by congruence. split; [exists c; split; [exact D|]; exists text, line; auto|].
      rewrite F1. intros path B. change (get v (place repo) false (Some Auto) true) with (get_with v (place repo) None (Some Auto) true) in B |- *.
      destruct (local_take v (place repo) None packed _ path L U B) as (c' & x & A1 & _ & A3 & A4). rewrite Sh, lookup_insert_ne, T3, E1 in A1 by congruence. exists c', x. auto.
  Qed.

  (** ** Signatures *)
  Lemma update_signed repo force u s : rd_infos (db_repo (m_dbs s)) !! repo = Some u -> result (update repo force) s = Ok tt ->
    let s' := final (update repo force) s in m_dbs s' <> m_dbs s ->
    let sig := get (parse (u ++ ".sig")) (place repo) false None false in
    exists f, m_files s' = final sig f /\ ((exists e, result sig f = Err e) \/ exists p, result sig f = Ok p /\ gpg_verify (m_files s') p = true).
  Proof.
    intros E R. destruct (same_at _ _ s (update_is repo force s u E)) as (_ & -> & Er). rewrite Er in R. clear Er. apply andthen_result in R as (got & R & K & ->). cbv zeta. intros N.
    pose proof (quiet_final _ s (reading_quiet u repo force)) as Q. set (s1 := final (reading u repo force) s) in *.
    destruct got as [ix|]; [|now elim N]. cbn [entering] in *. apply andthen_result in K as ([] & H & K & ->). destruct (enter_ok _ _ _ K) as [-> _]. rewrite on_files_final. cbn [m_files]. rewrite on_files_result in H.
    exists (m_files s1). set (sig := get (parse (u ++ ".sig")) (place repo) false None false) in *. unfold check_signature in *. fold sig in H |- *.
    apply andthen_result in H as (got & H & K' & ->). apply try_result in H as [[H F]|(e & H & _ & H' & F)].
    - rewrite F in K' |- *. apply andthen_result in H as (p & H & Ep & F'). injection Ep as <-. rewrite F' in K' |- *. unfold result in K'. rewrite ask_eq in K'. cbn [final ret] in K' |- *.
      change (final (ret (Some p)) (final sig (m_files s1))) with (final sig (m_files s1)) in *. split.
      + unfold final at 1. rewrite ask_eq. now destruct (gpg_verify _ p).
      + right. exists p. split; [exact H|]. unfold final at 1. rewrite ask_eq. destruct (gpg_verify (final sig (m_files s1)) p) eqn:G; [exact G|discriminate K'].
    - injection H' as <-. rewrite F. apply andthen_raises in H as [[H F']|(p & _ & H & _)]; [|discriminate H]. rewrite F'. split; [reflexivity|]. left. now exists e.
  Qed.

  (** ** Rebuilding *)
  Lemma local_get w dir packed (f : files) : is_local_file w = true -> unpacks (Some Auto) packed (destination w dir) ->
    match f !! u_uri w with
    | None => result (get w dir false (Some Auto) true) f = Err EOS
    | Some c => match (if packed then bunzip2 c else Some c) with
                | None => result (get w dir false (Some Auto) true) f = Err EOS
                | Some x => exists path, result (get w dir false (Some Auto) true) f = Ok path /\ final (get w dir false (Some Auto) true) f !! path = Some x
                end
    end.
  Proof.
    intros L U. change (get w dir false (Some Auto) true) with (get_with w dir None (Some Auto) true). unfold download_with, obtain, is_remote_file. rewrite L. cbn [negb orb].
    fold (destination w dir). set (l := destination w dir) in *. unfold copy.
    set (o := f0 <~ ask (fun f0 : files => f0) ;; _).
    destruct (f !! u_uri w) as [c|] eqn:E.
    2: { unfold result. rewrite (andthen_err o _ f EOS); [reflexivity|]. unfold o, result. rewrite ask_eq. cbn [andthen]. unfold andthen, ask. rewrite E. reflexivity. }
    assert (o f = ([<[ l := "" ]> f; <[ l := c ]> f], Ok l)) as Eo.
    { unfold o. rewrite ask_eq. unfold andthen, ask, write, change, ret. rewrite E. cbn. now rewrite insert_insert. }
    assert (result o f = Ok l) as Ro by (unfold result; now rewrite Eo). assert (final o f = <[ l := c ]> f) as Fo by (unfold final; now rewrite Eo).
    set (K := fun localfile => f0 <~ ask (fun f0 : files => f0) ;; decompress bunzip2 localfile (Some Auto)).
    assert (forall x, K l x = decompress bunzip2 l (Some Auto) x) as Kx by (intros x; unfold K; rewrite ask_eq; reflexivity).
    assert (forall r, result (decompress bunzip2 l (Some Auto)) (<[ l := c ]> f) = r -> result (andthen o K) f = r) as R1 by (intros r <-; unfold result; rewrite (andthen_ok o K f l Ro), Fo, Kx; reflexivity).
    assert (final (andthen o K) f = final (decompress bunzip2 l (Some Auto)) (<[ l := c ]> f)) as R2 by (rewrite (andthen_final o K f l Ro), Fo; unfold final; now rewrite Kx).
    assert (contents (<[ l := c ]> f) l = c) as Ct by (unfold contents; now rewrite lookup_insert).
    fold K. rewrite R2. unfold unpacks in U. destruct packed.
    - destruct U as [U|[_ U]]; [discriminate U|]. destruct (bunzip2 c) as [x|] eqn:B.
      + exists (py_take (String.length l - 4) l). unfold decompress in *. assert (choose_method l (Some Auto) = Some Bz2) as Cm by (unfold choose_method; destruct U as [q Uq]; rewrite (proj2 (endswith_iff l ".bz2") (ex_intro _ q Uq)); reflexivity).
        rewrite Cm in *. split; [apply R1|]; unfold result, final; rewrite ask_eq, Ct, B; unfold andthen, write, change, ret; cbn; [reflexivity|]. now rewrite lookup_insert.
      + apply R1. unfold decompress. assert (choose_method l (Some Auto) = Some Bz2) as Cm by (unfold choose_method; destruct U as [q Uq]; rewrite (proj2 (endswith_iff l ".bz2") (ex_intro _ q Uq)); reflexivity).
        rewrite Cm. unfold result. rewrite ask_eq, Ct, B. reflexivity.
    - destruct U as [U|(_ & U1 & U2)]; [discriminate U|]. exists l.
      assert (choose_method l (Some Auto) = None) as Cm.
      { unfold choose_method. destruct (py_endswith l ".bz2") eqn:B1; [elim U1; now apply endswith_iff in B1|]. destruct (py_endswith l ".gz") eqn:B2; [elim U2; now apply endswith_iff in B2|]. reflexivity. }
      unfold decompress in *. rewrite Cm in *. split; [now apply R1|]. apply lookup_insert.
  Qed.
  Lemma rebuild_unknown repo s : rd_infos (db_repo (m_dbs s)) !! repo = None -> rebuild repo s = ([], Err EError).
  Proof. intros E. unfold rebuild_repo. rewrite ask_eq, E. reflexivity. Qed.
  Lemma rebuild_exact repo u packed s : rd_infos (db_repo (m_dbs s)) !! repo = Some u ->
    let ip := join_path index_dir [repo; u_filename (parse u)] in
    is_local_file (parse ip) = true -> u_uri (parse ip) = ip -> (forall r, ip <> (tmp_dir ++ "/index/") ++ r) -> unpacks (Some Auto) packed (destination (parse ip) (tmp_dir ++ "/index")) ->
    (result (rebuild repo) s, m_dbs (final (rebuild repo) s)) = rebuilt bunzip2 read_index packed repo (m_dbs s) (m_files s !! ip).
  Proof.
    intros E ip L Ui Out U. set (td := tmp_dir ++ "/index") in *.
    set (f1 := filter (fun pc : string * string => py_startswith (fst pc) (td ++ "/") = false) (m_files s)).
    assert (f1 !! ip = m_files s !! ip) as Keep.
    { unfold f1. destruct (m_files s !! ip) as [c|] eqn:D.
      - apply map_filter_lookup_Some. split; [exact D|]. change (py_startswith ip (td ++ "/") = false). destruct (py_startswith ip (td ++ "/")) eqn:B; [|reflexivity]. apply startswith_iff in B as [r B]. elim (Out r). rewrite B. unfold td. now rewrite !str_app_assoc.
      - apply map_filter_lookup_None. now left. }
    set (rd := ix <~ on_files (read ip td true) ;; ret (Some ix)).
    set (fin := fun got : option pindex => match got with None => ret tt | Some ix => enter repo ix end).
    set (s1 := mkMachine f1 (m_dbs s)).
    assert (result (rebuild repo) s = result (got <~ try_except rd is_io_error (ret None) ;; fin got) s1 /\ m_dbs (final (rebuild repo) s) = m_dbs (final (got <~ try_except rd is_io_error (ret None) ;; fin got) s1)) as [-> ->].
    { set (q := got <~ try_except rd is_io_error (ret None) ;; fin got).
      assert (rebuild repo s = andthen (on_files (clean_dir td)) (fun _ => q) s) as Eq by (unfold rebuild_repo; rewrite ask_eq, E; reflexivity).
      destruct (same_at _ _ s Eq) as (_ & -> & ->). assert (result (on_files (clean_dir td)) s = Ok tt) as R by (rewrite on_files_result; reflexivity).
      assert (final (on_files (clean_dir td)) s = s1) as F by (rewrite on_files_final; reflexivity).
      split; [unfold result at 1; rewrite (andthen_ok _ _ s tt R), F; reflexivity|]. rewrite (andthen_final _ _ s tt R), F. reflexivity. }
    pose proof (local_get (parse ip) td packed f1 L U) as G. rewrite Ui, Keep in G. unfold rebuilt.
    assert (forall e, result rd s1 = Err e -> m_dbs (final rd s1) = m_dbs s) as Qrd.
    { intros e _. apply (quiet_final rd s1). apply quiet_then; [apply quiet_files|]. intros ix. apply quiet_ret. }
    set (get_ := get (parse ip) td false (Some Auto) true) in *.
    assert (forall e, result get_ f1 = Err e -> result rd s1 = Err e) as Err1.
    { intros e H. unfold rd, result. rewrite (andthen_err _ _ s1 e); [reflexivity|]. rewrite on_files_result. cbn [m_files s1]. unfold read_uri. cbn [negb]. fold get_. unfold result. now rewrite (andthen_err get_ _ f1 e H). }
    assert (result get_ f1 = Err EOS -> (result (got <~ try_except rd is_io_error (ret None) ;; fin got) s1, m_dbs (final (got <~ try_except rd is_io_error (ret None) ;; fin got) s1)) = (Ok tt, m_dbs s)) as Warn.
    { intros H. apply Err1 in H. destruct (try_caught rd (ret None) is_io_error s1 EOS H eq_refl) as [T1 T2].
      f_equal; [unfold result; rewrite (andthen_ok _ _ s1 None T1); reflexivity|]. rewrite (andthen_final _ _ s1 None T1), T2. cbn [fin]. exact (Qrd _ H). }
    destruct (m_files s !! ip) as [c|]; [|now apply Warn]. destruct (if packed then bunzip2 c else Some c) as [x|]; [|now apply Warn].
    destruct G as (path & G1 & G2).
    destruct (read_index x) as [ix|] eqn:I.
    - assert (result rd s1 = Ok (Some ix)) as Rr.
      { unfold rd, result. rewrite (andthen_ok _ _ s1 ix); [reflexivity|]. rewrite on_files_result. cbn [m_files s1]. unfold read_uri. cbn [negb]. fold get_. unfold result. rewrite (andthen_ok get_ _ f1 path G1). rewrite ask_eq, G2, I. reflexivity. }
      assert (m_dbs (final rd s1) = m_dbs s) as Q by (apply (quiet_final rd s1); apply quiet_then; [apply quiet_files|]; intros ix'; apply quiet_ret).
      destruct (same_at _ _ s1 (try_ok rd (ret None) is_io_error s1 _ Rr)) as (_ & T2 & T1). rewrite Rr in T1.
      rewrite (andthen_final _ _ s1 (Some ix) T1), T2. unfold result at 1. rewrite (andthen_ok _ _ s1 (Some ix) T1), T2. cbn [fin snd]. unfold enter, final at 2. rewrite !ask_eq, Q.
      destruct (update_db (m_dbs s) ix repo); cbn; [reflexivity|]. now rewrite Q.
    - assert (result rd s1 = Err EError) as Rr.
      { unfold rd, result. rewrite (andthen_err _ _ s1 EError); [reflexivity|]. rewrite on_files_result. cbn [m_files s1]. unfold read_uri. cbn [negb]. fold get_. unfold result. rewrite (andthen_ok get_ _ f1 path G1). rewrite ask_eq, G2, I. reflexivity. }
      assert (try_except rd is_io_error (ret None) s1 = rd s1) as Eq by (unfold try_except; unfold result in Rr; destruct (rd s1) as [t r]; cbn in Rr; rewrite Rr; reflexivity).
      destruct (same_at _ _ s1 Eq) as (_ & T2 & T1). rewrite Rr in T1. f_equal; [unfold result; now rewrite (andthen_err _ _ s1 EError T1)|].
      unfold final at 1. rewrite (andthen_err _ _ s1 EError T1). cbn [fst]. rewrite Eq. exact (Qrd _ Rr).
  Qed.
End update.

(** ** The index is here already *)
Section no_news.
  Context (server : string -> option string) (net : string -> files -> transfer) (parse : string -> uri) (mirrors : string -> list string)
    (dir_writable writable : string -> bool) (sha1 : string -> string) (bunzip2 : string -> option string) (fuel : nat).
  Context (index_dir : string) (read_index : string -> option pindex) (gpg_verify : files -> string -> bool).
  Notation get := (download server net parse mirrors false dir_writable writable sha1 bunzip2 (S fuel)).
  Notation get_with := (download_with server net parse mirrors false dir_writable writable sha1 bunzip2 (S fuel)).
  Notation update := (update_repo server net parse mirrors false dir_writable writable sha1 bunzip2 (S fuel) index_dir read_index gpg_verify).
  Notation place repo := (repo_dir index_dir repo).
  Lemma no_news g site packed u repo s c sum : (forall p, dir_writable p = true) -> (forall p, writable p = true) -> (forall a f, t_complete (net a f) = true) ->
    rd_infos (db_repo (m_dbs s)) !! repo = Some u -> visits server parse g site (parse u) packed (place repo) (m_files s) ->
    join_path2 (place repo) "uri" <> destination (parse u) (place repo) ->
    m_files s !! destination (parse u) (place repo) = Some c -> g !! (shelf site packed ++ ".sha1sum") = Some sum -> says sum (sha1 c) ->
    result (update repo false) s = Ok tt /\ m_dbs (final (update repo false) s) = m_dbs s.
  Proof.
    intros Wd Wf Net E V Nu D Es Ls. set (v := parse u) in *. pose proof V as [[L M] Sh [L' M'] Sh' Nm [F1 F2]].
    set (f := <[ join_path2 (place repo) "uri" := u ]> (m_files s)).
    assert (visits server parse g site v packed (place repo) f) as Vf by (constructor; auto; split; unfold f; rewrite lookup_insert_ne; auto using not_part).
    set (sm := parse (u_uri v ++ ".sha1sum")) in *.
    assert (sum <> "") as Ne by (intros ->; inversion Ls; match goal with H : _ = "" |- _ => destruct a; discriminate H || contradiction end).
    destruct (with_good server net parse mirrors dir_writable writable sha1 bunzip2 fuel (place repo) (Wd _) Wf Net sm f sum None None M' L') as [[path H]|H];
      [rewrite Nm; destruct (u_filename v); discriminate|unfold f; rewrite lookup_insert_ne; auto using not_part|congruence|exact Ne|discriminate|left; now left| |].
    2: { apply with_already in H as [_ (line & c' & K & _)]. discriminate K. }
    destruct (sum_state server net parse mirrors false dir_writable writable sha1 bunzip2 (S fuel) (place repo) g site v packed f Vf path H) as (sum' & A1 & A2 & A3 & A4). cbv zeta in *. fold sm in A2, A3, A4.
    assert (sum' = sum) as -> by congruence. unfold f in A4 at 2. rewrite lookup_insert_ne in A4 by exact Nu. rewrite D in A4.
    set (f1 := final (get_with sm (place repo) None None false) f) in *.
    assert (is_remote_file v = true) as R by (unfold is_remote_file; now rewrite L).
    assert (result (get v (place repo) true (Some Auto) true) f = Err EAlreadyHave) as Al.
    { rewrite (copy_same server net parse mirrors false dir_writable writable sha1 bunzip2 (S fuel) v _ _ _ _ R).
      unfold download. unfold result. rewrite (andthen_ok _ _ f path H). cbn [snd]. fold f1. rewrite ask_eq, A2. rewrite (proj2 (RebuildTop.first_line_says sum (sha1 c)) Ls).
      unfold download_with. rewrite (andthen_err _ _ f1 EAlreadyHave); [reflexivity|]. unfold result, obtain. rewrite R. cbn [orb]. rewrite ask_eq.
      unfold exists_, contents. fold (destination v (place repo)). rewrite A4. cbn [default]. rewrite bool_decide_true by eauto. rewrite String.eqb_refl. reflexivity. }
    destruct (same_at _ _ s (update_is server net parse mirrors false dir_writable writable sha1 bunzip2 (S fuel) index_dir read_index gpg_verify repo false s u E)) as (_ & -> & ->).
    set (rd := reading _ _ _ _ _ _ _ _ _ _ _ _ u repo false).
    assert (result rd s = Ok None) as Rd.
    { unfold rd, reading.
      assert (result (read_uri_of_repo server net parse mirrors false dir_writable writable sha1 bunzip2 (S fuel) index_dir read_index u repo false) (m_files s) = Err EAlreadyHave) as Rr.
      { unfold read_uri_of_repo. rewrite (proj1 (put_twice _ _ _ _)). fold f. unfold read_uri. cbn [negb]. fold v. unfold result. now rewrite (andthen_err _ _ f EAlreadyHave Al). }
      set (p := ix <~ on_files _ ;; ret (Some ix)). assert (result p s = Err EAlreadyHave) as Rp.
      { unfold p, result. rewrite (andthen_err _ _ s EAlreadyHave); [reflexivity|]. rewrite on_files_result. exact Rr. }
      rewrite (proj1 (try_caught p (ret None) is_already s EAlreadyHave Rp eq_refl)). reflexivity. }
    split.
    - unfold result. rewrite (andthen_ok _ _ s None Rd). reflexivity.
    - rewrite (andthen_final _ _ s None Rd). change (final (entering _ _ _ _ _ _ _ _ _ _ _ _ _ _ None) (final rd s)) with (final rd s). apply quiet_final. apply reading_quiet.
  Qed.
End no_news.
