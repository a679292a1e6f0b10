(** * C97: configuring packages with COMAR *)
From Coq Require Import String List Bool.
From Verif Require Import Model.Py Spec.PathSpec Model.Comar Spec.ComarSpec Proof.ComarFacts.
Import ListNotations.
Open Scope string_scope.

(** C97.  Configuring an installed package asks COMAR to register each of its scripts, in order,
    then to tell the handlers, then to run what the package has for after installing, if it has
    a script for that; each is asked only when everything before it has succeeded.  It ends
    well just if all of it succeeded, or COMAR itself was configured, cut the link in the last
    step and could be reached again; otherwise it ends with an error, and nothing was asked
    after the first failure.  It never waits for what does not come. *)
Theorem C97_configured (answer : list request -> list reply) (hangs_up : list request -> bool) (comes_back : bool)
    (package : string) (scripts : list provide) (scriptpath metapath filepath : string) (rs : list request) :
  answers answer hangs_up -> script_names scriptpath scripts -> asked_to_configure package scripts scriptpath metapath filepath rs ->
  exists l o, post_install answer hangs_up true comes_back package scripts scriptpath metapath filepath = (Some l, o) /\
    ((o = Done /\ sent l = rs /\ (all_good answer hangs_up rs \/ restarted answer hangs_up package comes_back scripts rs)) \/
     (o = Raised EError /\ stops answer hangs_up rs (sent l) /\ ~ restarted answer hangs_up package comes_back scripts rs)).
Proof. intros A N Q. exact (configure answer hangs_up comes_back true package scripts scriptpath metapath filepath rs eq_refl A N Q). Qed.
Print Assumptions C97_configured.
Theorem C97_succeeds (answer : list request -> list reply) (hangs_up : list request -> bool) (comes_back : bool)
    (package : string) (scripts : list provide) (scriptpath metapath filepath : string) (rs : list request) :
  answers answer hangs_up -> script_names scriptpath scripts -> asked_to_configure package scripts scriptpath metapath filepath rs ->
  snd (post_install answer hangs_up true comes_back package scripts scriptpath metapath filepath) = Done <->
  all_good answer hangs_up rs \/ restarted answer hangs_up package comes_back scripts rs.
Proof. intros A N Q. exact (configure_iff answer hangs_up comes_back true package scripts scriptpath metapath filepath rs eq_refl A N Q). Qed.
Print Assumptions C97_succeeds.

(** Before a package is removed its own script is run, the handlers are told, and its scripts
    are unregistered, in the same way. *)
Theorem C97_removal (answer : list request -> list reply) (hangs_up : list request -> bool) (comes_back : bool) (package metapath filepath : string) :
  answers answer hangs_up ->
  exists l o, pre_remove answer hangs_up true comes_back package metapath filepath = (Some l, o) /\
    ((o = Done /\ sent l = asked_to_remove package metapath filepath /\ all_good answer hangs_up (asked_to_remove package metapath filepath)) \/
     (o = Raised EError /\ stops answer hangs_up (asked_to_remove package metapath filepath) (sent l))).
Proof. intros A. exact (removal answer hangs_up comes_back true package metapath filepath eq_refl A). Qed.
Print Assumptions C97_removal.

(** Without a link both fail. *)
Theorem C97_no_link (answer : list request -> list reply) (hangs_up : list request -> bool) (comes_back : bool) :
  (forall package scripts scriptpath metapath filepath, post_install answer hangs_up false comes_back package scripts scriptpath metapath filepath = (None, Raised EError)) /\
  (forall package metapath filepath, pre_remove answer hangs_up false comes_back package metapath filepath = (None, Raised EError)).
Proof. exact (unconnected answer hangs_up comes_back false eq_refl). Qed.
Print Assumptions C97_no_link.

(** Whatever COMAR sends, even if it does not keep to its protocol, what was asked is the
    beginning of that list, and all of it if the end is good. *)
Theorem C97_in_order (answer : list request -> list reply) (hangs_up : list request -> bool) (connects comes_back : bool)
    (package : string) (scripts : list provide) (scriptpath metapath filepath : string) (rs : list request) l o :
  script_names scriptpath scripts -> asked_to_configure package scripts scriptpath metapath filepath rs ->
  post_install answer hangs_up connects comes_back package scripts scriptpath metapath filepath = (Some l, o) ->
  (exists rest, rs = (sent l ++ rest)%list) /\ (o = Done -> sent l = rs).
Proof. exact (in_order answer hangs_up comes_back connects package scripts scriptpath metapath filepath rs l o). Qed.
Print Assumptions C97_in_order.
Theorem C97_removal_in_order (answer : list request -> list reply) (hangs_up : list request -> bool) (connects comes_back : bool) (package metapath filepath : string) l o :
  pre_remove answer hangs_up connects comes_back package metapath filepath = (Some l, o) ->
  (exists rest, asked_to_remove package metapath filepath = (sent l ++ rest)%list) /\ (o = Done -> sent l = asked_to_remove package metapath filepath).
Proof. exact (in_order_remove answer hangs_up comes_back connects package metapath filepath l o). Qed.
Print Assumptions C97_removal_in_order.

(** An answer has one meaning only. *)
Theorem C97_one_verdict rs shut v w : says rs shut v -> says rs shut w -> v = w.
Proof. exact (says_one rs shut v w). Qed.
Print Assumptions C97_one_verdict.

(** ** A case: two scripts, a group of replies, and a handler that fails for the package "bad" *)
Definition scripts : list provide := [mkProvide "System.Service" "service.py"; mkProvide "System.Package" "package.py"].
Definition replies (h : list request) : list reply :=
  match last h (Unregister "") with
  | Register _ _ _ => [ROther; RResult]
  | Call _ ["metapath"; m; _; _] => if String.eqb m "/bad" then [RStart; RResult; RFail; REnd] else [RStart; RResult; RNone; REnd]
  | CallPackage _ "comar" => [ROther]
  | _ => [RNone]
  end.
Definition cuts (h : list request) : bool := match last h (Unregister "") with CallPackage _ "comar" => true | _ => false end.
Lemma replies_answer : answers replies cuts.
Proof.
  intros h _. unfold decides, replies, cuts. generalize (last h (Unregister "")). intros r.
  assert (says [RNone] false Succeeded) as N by (apply (single_good [] RNone); [constructor|now right]).
  destruct r as [o p s|m args|m p|p]; [| | |now exists Succeeded].
  - exists Succeeded. apply (single_good [ROther] RResult); [now repeat constructor|now left].
  - assert (exists v, says [RStart; RResult; RFail; REnd] false v) as B.
    { exists Failed. apply (group_bad [] [RResult; RFail] [REnd]); [constructor| |exists RFail; split; [right; now left|now left]].
      constructor; [right; left; now left|]. constructor; [right; right; now left|constructor]. }
    assert (exists v, says [RStart; RResult; RNone; REnd] false v) as G.
    { exists Succeeded. apply (group_good [] [RResult; RNone]); [constructor| |].
      - constructor; [right; left; now left|]. constructor; [right; left; now right|constructor].
      - intros x [<-|[<-|[]]] [K|[K|K]]; discriminate K. }
    assert (exists v, says [RNone] false v) as G' by now exists Succeeded.
    repeat match goal with |- exists v, says (match ?x with _ => _ end) _ v => destruct x; try assumption end.
  - assert (exists v, says [ROther] true v) as C. { exists Cut. apply cut_single. now repeat constructor. }
    assert (exists v, says [RNone] false v) as G' by now exists Succeeded.
    assert (p = "comar" \/ p <> "comar") as [->|K] by (destruct (string_dec p "comar"); auto); [exact C|].
    repeat match goal with |- exists v, says (match ?x with _ => _ end) _ v => destruct x; try assumption; try congruence end.
Qed.
Lemma names : script_names "/scripts" scripts.
Proof.
  split; [discriminate|]. split.
  - intros [t H]. do 8 (destruct t as [|? t]; [discriminate H|injection H as ? H; subst]); destruct t; discriminate H.
  - intros s [<-|[<-|[]]] r H; discriminate H.
Qed.
Example C97_nontrivial : answers replies cuts /\ script_names "/scripts" scripts /\
  snd (post_install replies cuts true true "apache" scripts "/scripts" "/m" "/f") = Done /\
  snd (post_install replies cuts true true "apache" scripts "/scripts" "/bad" "/f") = Raised EError /\
  snd (post_install replies cuts true true "comar" scripts "/scripts" "/m" "/f") = Done /\
  snd (post_install replies cuts true false "comar" scripts "/scripts" "/m" "/f") = Raised EError /\
  option_map sent (fst (post_install replies cuts true true "apache" scripts "/scripts" "/bad" "/f")) =
    Some [Register "System.Service" "apache" "/scripts/service.py"; Register "System.Package" "apache" "/scripts/package.py";
          Call "System.PackageHandler.setupPackage" ["metapath"; "/bad"; "filepath"; "/f"]] /\
  snd (pre_remove replies cuts true true "apache" "/m" "/f") = Done /\
  snd (pre_remove replies cuts true true "comar" "/m" "/f") = Raised EError.
Proof. split; [apply replies_answer|]. split; [apply names|]. repeat split; reflexivity. Qed.
