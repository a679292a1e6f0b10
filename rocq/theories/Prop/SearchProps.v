(** * C40-C43, C58, C59: searching *)
From Coq Require Import String Ascii List ZArith.
From stdpp Require Import gmap strings.
From Verif Require Import Model.Py Model.ItemByRepo Model.Dependency Model.Package Model.ComponentDB Model.Search Model.Databases Model.SearchOps
  Spec.ItemByRepoSpec Spec.DatabaseSpec Spec.SearchSpec Proof.ItemByRepoFacts Proof.RevDepFacts Proof.SearchFacts Proof.SearchSystem.
Open Scope string_scope.
Open Scope list_scope.

(** ** C43 *)
Theorem C43_tokens_are_the_words : forall s ts, tokenize s = ts <-> words_of ts s.
Proof. exact tokenize_iff. Qed.
Print Assumptions C43_tokens_are_the_words.

Example C43_nontrivial : words_of ["web"; "browser"; "mozilla2"] " web-browser (mozilla2)".
Proof. apply C43_tokens_are_the_words. vm_compute. reflexivity. Qed.

(** ** C42 *)
Theorem C42_english_partial : forall s t, lower "en" s = lower "en" t <-> same_but_case s t.
Proof. exact lower_en_iff. Qed.
Print Assumptions C42_english_partial.

Theorem C42_english_text_partial : forall s t, same_but_case s t -> preprocess "en" s = preprocess "en" t.
Proof. exact preprocess_en_case. Qed.
Print Assumptions C42_english_text_partial.

(** In Turkish nothing is folded. *)
Theorem C42_refuted_turkish : exists s t, same_but_case s t /\ preprocess "tr" s <> preprocess "tr" t.
Proof.
  exists "Bash", "bash". split; [|vm_compute; discriminate].
  apply lower_en_iff. vm_compute. reflexivity.
Qed.
Print Assumptions C42_refuted_turkish.

Theorem C42_turkish_exact : forall s, lower "tr" s = s.
Proof. exact lower_tr. Qed.
Print Assumptions C42_turkish_exact.

Example C42_nontrivial : same_but_case "GNU Bash" "gnu bASH" /\ preprocess "en" "GNU Bash" = ["gnu"; "bash"].
Proof. split; [apply lower_en_iff|]; vm_compute; reflexivity. Qed.

(** ** C40 *)
Theorem C40_query_exact : forall h d order terms r,
  Forall (fun x => place (iop_place x.2)) h -> run_iops h ∅ = Ok d -> ~ place r ->
  exists R, query order d terms r = Ok R /\
  forall doc, doc ∈ R <-> terms <> [] /\ forall t, In t terms -> exists q, searched order r q /\ has_word (map snd h) doc t q.
Proof. exact query_exact. Qed.
Print Assumptions C40_query_exact.

Theorem C40_updates_succeed : forall h, Forall (fun x => place (iop_place x.2)) h -> exists d, run_iops h ∅ = Ok d.
Proof. exact history_runs. Qed.
Print Assumptions C40_updates_succeed.

Example C40_nontrivial :
  let h := [(["main"], IAdd "nano" ["text"; "editor"] (RName "main")); (["main"], IAdd "vim" ["editor"; "modal"] (RName "main"));
            (["main"; "x"], IAdd "vim" ["text"] (RName "x")); (["main"], IDel "nano" ["text"] (RName "main"))] in
  Forall (fun x => place (iop_place x.2)) h /\
  match run_iops h ∅ with
  | Ok d => match query ["main"; "x"] d ["editor"; "text"] RRepos, query ["main"] d ["editor"] RRepos with
            | Ok a, Ok b => bool_decide (a = {["vim"]}) && bool_decide (b = {["nano"; "vim"]})
            | _, _ => false end
  | Err _ => false end = true.
Proof. split; [repeat constructor; discriminate|]. vm_compute. reflexivity. Qed.

(** ** C41: false as stated *)
Definition desc (name text : string) : package :=
  mkPackage name "1" "1" None [] [] [] (Some "app") [("en", text)] [] [] false "".

Theorem C41_results_exist_partial : forall s text lang names r R,
  history_where search_careful s -> ~ place r -> In lang ["en"; "tr"] ->
  search_package s text lang names r = Ok R ->
  forall x, x ∈ R -> exists q pk, searched (order_of s) RAll q /\ get_package s x q = Ok pk.
Proof. exact search_results_exist. Qed.
Print Assumptions C41_results_exist_partial.

(** A repository update that drops a package leaves it in the index. *)
Definition dropped : dbs := run_ops
  [OAddRepo "main" "/m" None; OUpdateRepo "main" (mkIndex [] [desc "nano" "small editor"] []); OUpdateRepo "main" (mkIndex [] [] [])].
Theorem C41_refuted : exists s R x, reachable s /\ search_package s "editor" "en" true RAll = Ok R /\ x ∈ R /\
  has_package s x RAll = Ok false.
Proof.
  destruct (search_spec dropped "editor" "en" true RAll (run_ops_reachable _)) as (R & E & _); [intros [_ H]; now apply H|simpl; auto|].
  exists dropped, R, "nano". split; [apply run_ops_reachable|]. split; [exact E|]. split; [|vm_compute; reflexivity].
  assert (B : match search_package dropped "editor" "en" true RAll with Ok R => bool_decide ("nano" ∈ R) | Err _ => false end = true) by (vm_compute; reflexivity).
  rewrite E in B. now apply bool_decide_eq_true in B.
Qed.
Print Assumptions C41_refuted.

Example C41_nontrivial :
  let s := run_ops [OInstalled (desc "nano" "small editor")] in
  history_where search_careful s /\
  match search_package s "Editor" "en" false RAll with Ok R => bool_decide (R = {["nano"]}) | Err _ => false end = true.
Proof.
  split; [|vm_compute; reflexivity].
  apply (h_step _ empty_dbs (OInstalled (desc "nano" "small editor"))); [apply h_start| |].
  - eexists. vm_compute. reflexivity.
  - unfold run_ops. cbn [fold_left].
    destruct (apply_op empty_dbs (OInstalled (desc "nano" "small editor"))) eqn:E; [reflexivity|].
    assert (B : is_ok (apply_op empty_dbs (OInstalled (desc "nano" "small editor"))) = true) by (vm_compute; reflexivity). rewrite E in B. discriminate B.
Qed.

(** ** C58 *)
Theorem C58_search_succeeds_partial : forall s text lang names r, reachable s -> ~ place r -> In lang ["en"; "tr"] ->
  exists R, search_package s text lang names r = Ok R.
Proof. intros s text lang names r H Hr Hl. destruct (search_spec s text lang names r H Hr Hl) as (R & E & _). eauto. Qed.
Print Assumptions C58_search_succeeds_partial.

Theorem C58_refuted : forall s text names r, search_package s text "de" names r = Err EKey.
Proof. intros. apply search_other_language. simpl. intuition discriminate. Qed.
Print Assumptions C58_refuted.

(** ** C59 *)
Theorem C59_search_finds : forall s text lang names r id q x pk,
  reachable s -> ~ place r -> In lang ["en"; "tr"] ->
  searched (order_of s) r q -> get_package s x q = Ok pk -> preprocess lang text <> [] ->
  (forall t, In t (preprocess lang text) -> mentions pk id lang t) ->
  exists R, search_package s text lang names r = Ok R /\ x ∈ R.
Proof. exact search_finds. Qed.
Print Assumptions C59_search_finds.

Theorem C59_names : forall s q, reachable s -> exists R, search_package_names s q = Ok R /\
  forall x, x ∈ R <-> (exists a b, x = a +:+ q +:+ b) /\ exists r pk, In r (order_of s) /\ get_package s x (RName r) = Ok pk.
Proof.
  intros s q H. destruct (names_spec s q H) as (R & E & S). exists R. split; [exact E|]. intros x. rewrite S, contains_iff. reflexivity.
Qed.
Print Assumptions C59_names.

Example C59_nontrivial :
  let s := run_ops [OAddRepo "main" "/m" None; OUpdateRepo "main" (mkIndex [] [desc "nano" "small editor"] [])] in
  reachable s /\ searched (order_of s) RRepos (RName "main") /\ get_package s "nano" (RName "main") = Ok (desc "nano" "small editor") /\
  forall t, In t (preprocess "en" "Editor") -> mentions (desc "nano" "small editor") "summary" "en" t.
Proof.
  split; [apply run_ops_reachable|]. split; [left; exists "main"; split; [reflexivity|vm_compute; auto]|]. split; [vm_compute; reflexivity|].
  intros t [<-|[]]. exists "small editor". split; [vm_compute; auto|]. split; [simpl; auto|]. left. simpl. auto.
Qed.
