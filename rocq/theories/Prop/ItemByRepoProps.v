(** * C22, C24, C27 (and the single-database parts of C23 and C25) *)
From stdpp Require Import gmap strings.
From Verif Require Import Model.Py Model.ItemByRepo Spec.ItemByRepoSpec Proof.ItemByRepoFacts Proof.ItemByRepoMain.
Open Scope string_scope.
Open Scope list_scope.

(** ** C22 *)

(** The lookup gives [x] from [q] exactly when [q] is the first repository of the user's
    order that carries the name, and [x] is what it carries. *)
Theorem C22_first_repository : forall A order (d : shelf A) n x q,
  get_item_repo order d n RRepos = Ok (x, q) <->
  exists pre r post, order = pre ++ r :: post /\ q = RName r /\ get_item order d n (RName r) = Ok x /\
    forall r', In r' pre -> missing (get_item order d n (RName r')).
Proof. exact @first_repository. Qed.
Print Assumptions C22_first_repository.

Theorem C22_same_item : forall A order (d : shelf A) n r x,
  get_item order d n r = Ok x <-> exists q, get_item_repo order d n r = Ok (x, q).
Proof. exact @get_item_repo_get. Qed.
Print Assumptions C22_same_item.

Theorem C22_which_repo : forall A order (d : shelf A) n q,
  which_repo order d n = Ok q <-> exists x, get_item_repo order d n RRepos = Ok (x, q).
Proof. exact @which_repo_is. Qed.
Print Assumptions C22_which_repo.

Theorem C22_fails_exactly_when_nowhere : forall A order (d : shelf A) n,
  missing (get_item order d n RRepos) <-> forall r, In r order -> missing (get_item order d n (RName r)).
Proof. exact @lookup_fails. Qed.
Print Assumptions C22_fails_exactly_when_nowhere.

(** "Anywhere": the repositories first, then third-party packages, then installed ones. *)
Theorem C22_anywhere : forall A order (d : shelf A) n x,
  get_item order d n RAll = Ok x <->
  get_item order d n RRepos = Ok x \/
  missing (get_item order d n RRepos) /\ get_item order d n RThird = Ok x \/
  missing (get_item order d n RRepos) /\ missing (get_item order d n RThird) /\ get_item order d n RInst = Ok x.
Proof. exact @any_place. Qed.
Print Assumptions C22_anywhere.

Example C22_nontrivial :
  let put d n x r := match add_item d n x r with Ok d' => d' | Err _ => d end in
  let d := put (put (put (∅ : shelf nat) "bash" 1 (RName "contrib")) "bash" 2 (RName "main")) "bash" 3 RInst in
  get_item_repo ["main"; "contrib"] d "bash" RRepos = Ok (2, RName "main") /\
  get_item_repo ["contrib"; "main"] d "bash" RRepos = Ok (1, RName "contrib") /\
  get_item_repo ["other"] d "bash" RRepos = Err EError /\
  get_item ["other"] d "bash" RAll = Ok 3.
Proof. vm_compute. auto. Qed.

(** ** C23, for one database *)
Theorem C23_has_iff_get : forall A order (d : shelf A) n r, history d -> listed order d ->
  (has_key d n r = Ok true <-> exists x, get_item order d n r = Ok x) /\
  (has_key d n r = Ok false <-> missing (get_item order d n r)).
Proof. intros A order d n r H. exact (has_get order d n r (history_wf d H)). Qed.
Print Assumptions C23_has_iff_get.

Theorem C23_list_iff_get : forall A order (d : shelf A) n r l, history d -> listed order d ->
  list_items d r = Ok l -> NoDup l /\ (In n l <-> exists x, get_item order d n r = Ok x).
Proof. exact @list_exact. Qed.
Print Assumptions C23_list_iff_get.

(** ** C24 *)
Theorem C24_add : forall A order (d : shelf A) n x r d', add_item d n x r = Ok d' ->
  get_item order d' n r = Ok x /\
  forall n' r', place r' -> (n', r') <> (n, r) -> get_item order d' n' r' = get_item order d n' r'.
Proof. exact @add_effect. Qed.
Print Assumptions C24_add.

Theorem C24_add_succeeds : forall A (d : shelf A) n x r,
  (exists d', add_item d n x r = Ok d') <-> place r.
Proof. exact @add_possible. Qed.
Print Assumptions C24_add_succeeds.

Theorem C24_remove : forall A order (d : shelf A) n r d', place r -> remove_item order d n r = Ok d' ->
  missing (get_item order d' n r) /\
  forall n' r', place r' -> (n', r') <> (n, r) -> get_item order d' n' r' = get_item order d n' r'.
Proof. exact @remove_effect. Qed.
Print Assumptions C24_remove.

(** Removing without naming a place removes the one a lookup would have found. *)
Theorem C24_remove_unnamed : forall A order (d : shelf A) n r d', ~ place r ->
  (remove_item order d n r = Ok d' <->
   exists q, which_repo order d n = Ok q /\ remove_item order d n q = Ok d').
Proof. exact @remove_wild_effect. Qed.
Print Assumptions C24_remove_unnamed.

(** Names with no entry left do not linger in the listing. *)
Theorem C24_no_lingering_names : forall A (d : shelf A) n l, history d -> list_items d RAll = Ok l ->
  (In n l <-> exists q x, place q /\ get_item [] d n q = Ok x).
Proof. exact @list_all_exact. Qed.
Print Assumptions C24_no_lingering_names.

(** Removing is possible for every name that is recorded anywhere (even elsewhere). *)
Theorem C24_remove_succeeds : forall A order (d : shelf A) n r, place r ->
  ((exists d', remove_item order d n r = Ok d') <-> is_Some (d !! n)).
Proof. exact @remove_possible. Qed.
Print Assumptions C24_remove_succeeds.

Example C24_nontrivial :
  let put d n x r := match add_item d n x r with Ok d' => d' | Err _ => d end in
  let rem d n r := match remove_item [] d n r with Ok d' => d' | Err _ => d end in
  let d := put (put (put (∅ : shelf nat) "bash" 1 (RName "inst")) "bash" 2 RInst) "bash" 3 RThird in
  get_item [] d "bash" (RName "inst") = Ok 1 /\ get_item [] d "bash" RInst = Ok 2 /\
  get_item [] (rem d "bash" RInst) "bash" (RName "inst") = Ok 1 /\
  missing (get_item [] (rem d "bash" RInst) "bash" RInst) /\
  list_items (rem (rem (rem d "bash" RInst) "bash" RThird) "bash" (RName "inst")) RAll = Ok [].
Proof. vm_compute. eauto 10. Qed.

(** ** C25, for one database *)
Theorem C25_one_database : forall A order (d : shelf A) r d', place r -> history d -> remove_repo_items d r = Ok d' ->
  (forall n, missing (get_item order d' n r)) /\
  forall n q, place q -> q <> r -> get_item order d' n q = get_item order d n q.
Proof. exact @remove_repo_exact. Qed.
Print Assumptions C25_one_database.

Theorem C25_one_database_succeeds : forall A (d : shelf A) r, place r -> history d ->
  exists d', remove_repo_items d r = Ok d'.
Proof. exact @remove_repo_possible. Qed.
Print Assumptions C25_one_database_succeeds.

(** ** C27 *)
Theorem C27_keys_unambiguous : forall r r' k, repo_str r = Ok k -> repo_str r' = Ok k -> r = r'.
Proof.
  intros r r' k H H'. apply repo_str_ok in H as [H ->]. apply repo_str_ok in H' as [H' E].
  exact (pkey_inj r r' H H' E).
Qed.
Print Assumptions C27_keys_unambiguous.

Theorem C27_keys_decode : forall r k, repo_str r = Ok k -> str_repo k = Ok r.
Proof. intros r k H. apply repo_str_ok in H as [H ->]. exact (str_repo_pkey r H). Qed.
Print Assumptions C27_keys_decode.

Theorem C27_decoding_is_sound : forall r k, str_repo k = Ok r -> repo_str r = Ok k.
Proof. intros r k H. apply str_repo_ok in H as [H ->]. exact (repo_str_place r H). Qed.
Print Assumptions C27_decoding_is_sound.

Theorem C27_every_place_has_a_key : forall r, (exists k, repo_str r = Ok k) <-> place r.
Proof.
  intros r. split; [intros [k H]; now apply repo_str_ok in H|intros H; eexists; exact (repo_str_place r H)].
Qed.
Print Assumptions C27_every_place_has_a_key.

Example C27_nontrivial :
  repo_str (RName "inst") = Ok "repo-inst" /\ repo_str RInst = Ok "inst" /\
  repo_str (RName "") = Ok "repo-" /\ str_repo "repo-repo-x" = Ok (RName "repo-x") /\ str_repo "bogus" = Err EError.
Proof. vm_compute. auto. Qed.
