(** * C95: additional files are in the package, as the specification gives them *)
From Coq Require Import String Ascii NArith List Bool Lia.
From stdpp Require Import gmap strings.
From Verif Require Import Model.Py Model.Path Spec.PathSpec Proof.PyFacts Proof.PathFacts Model.Additional Spec.AdditionalSpec Proof.AdditionalFacts.
Import ListNotations.
Open Scope string_scope.

Section any_source.
  Context (sources : string -> option string) (umask : N) (install : string) (strip : tree -> tree).
  Local Notation make_packages := (make_packages sources umask install strip).
  Local Notation placed := (placed sources umask install).

  (** What package number [k] holds.  Missing in the general statement, and false of the code:
      targets that do not begin with a slash; links, which are not modelled. *)
  Theorem C95_packages_partial pkgs t made t' r k m :
    install_place install ->
    (forall pk af, In pk pkgs -> In af (ap_files pk) -> good_target (af_target af)) ->
    make_packages t pkgs = (made, t', r) -> made !! k = Some m ->
    exists pk, pkgs !! k = Some pk /\
      forall f, (ap_takes pk f = true -> placed (strip t) (added_upto pkgs k) f (m !! f)) /\ (ap_takes pk f = false -> m !! f = None).
  Proof. exact (fun IP => made_holds sources umask install IP pkgs (strip t) made t' r k m). Qed.

  (** The packages made are the first ones, all of them if no exception is raised. *)
  Theorem C95_in_turn pkgs t made t' r :
    make_packages t pkgs = (made, t', r) ->
    (r = Ok tt -> length made = length pkgs) /\ (forall e, r = Err e -> (length made < length pkgs)%nat).
  Proof.
    intros H. destruct (make_each_is sources umask install pkgs (strip t) made t' r H) as (_ & A & B). split.
    - intros E. exact (proj1 (A E)).
    - intros e E. exact (proj1 (B e E)).
  Qed.

  Theorem C95_succeeds_partial pkgs t :
    install_place install -> storable sources install (strip t) (concat (map ap_files pkgs)) ->
    exists made t', make_packages t pkgs = (made, t', Ok tt).
  Proof.
    intros IP St. destruct (make_packages t pkgs) as [[made t'] r] eqn:E. exists made, t'. f_equal.
    destruct (make_each_is sources umask install pkgs (strip t) made t' r E) as (_ & _ & B). destruct r as [[]|e]; [reflexivity|].
    destruct (B e eq_refl) as [_ K]. destruct (store_possible sources umask install IP _ _ St) as [u U].
    destruct (store_upto sources umask install pkgs (length made) _ _ U) as (tk & K' & _). congruence.
  Qed.

  (** Packaging the same build once more.  Missing in the general statement, and false of the
      code: additional files of later packages in places an earlier one takes. *)
  Theorem C95_again_partial pkgs t made t1 made2 t2 :
    install_place install ->
    (forall pk af, In pk pkgs -> In af (ap_files pk) -> good_target (af_target af)) ->
    (exists h : string -> string -> string, (forall f c, h f (h f c) = h f c) /\
       forall u f, strip u !! f = match u !! f with Some (c, m) => Some (h f c, m) | None => None end) ->
    (forall k j pk pj af, (k < j)%nat -> pkgs !! k = Some pk -> pkgs !! j = Some pj -> In af (ap_files pj) -> ap_takes pk (install ++ af_target af) = false) ->
    make_packages t pkgs = (made, t1, Ok tt) -> make_packages t1 pkgs = (made2, t2, Ok tt) -> made2 = made.
  Proof. exact (fun IP => made_again sources umask install IP pkgs t strip made t1 made2 t2). Qed.

  (** A target without the slash goes beside the install directory. *)
  Theorem C95_beside p n :
    install_place install -> relative_path p -> n <> "" -> free_of "/" n ->
    dest_of install (p ++ "/" ++ n) = install ++ p ++ "/" ++ n /\ forall r, dest_of install (p ++ "/" ++ n) <> install ++ "/" ++ r.
  Proof.
    intros IP R N F. rewrite (dest_relative install p n IP R N F). split; [reflexivity|]. intros r K.
    apply (f_equal los) in K. rewrite (los_app install), (los_app install) in K. apply app_inv_head in K. apply los_inj in K.
    assert (py_lstrip "/" p = p) as L by now apply rel_lstrip. destruct p as [|x p]; [now apply rel_nonempty in R|]. injection K as -> K.
    cbn [py_lstrip] in L. change (char_in "/" "/") with true in L. cbn match in L. apply (f_equal String.length) in L.
    destruct (lstrip_decomp "/" p) as (q & Q & _). apply (f_equal String.length) in Q. rewrite str_app_length in Q. cbn in L. lia.
  Qed.
End any_source.
Print Assumptions C95_packages_partial.
Print Assumptions C95_in_turn.
Print Assumptions C95_succeeds_partial.
Print Assumptions C95_again_partial.
Print Assumptions C95_beside.

(** ** Cases *)
Definition beside_spec (n : string) : option string :=
  if String.eqb n "zip.conf" then Some "conf" else if String.eqb n "zip.sh" then Some "script" else None.
Definition inst : string := "/w/install".
Definition produced : tree := <["/w/install/usr/bin/zip" := ("program", 493%N)]> (<["/w/install/etc/zip.conf" := ("sample", 384%N)]> ∅).
Definition takes_in (d : string) (f : string) : bool := py_startswith f (inst ++ d ++ "/").
Definition p_zip := mkApkg [mkAdd "zip.conf" "/etc/zip.conf" None; mkAdd "zip.sh" "/etc/zip.sh" (Some "0755")] (takes_in "/etc").
Definition p_doc := mkApkg [mkAdd "zip.conf" "/usr/doc/zip.conf" (Some "0600"); mkAdd "zip.conf" "/etc/sample" None] (takes_in "/usr").
Definition made_of (t : tree) (ps : list apkg) := make_packages beside_spec 18 inst (fun t => t) t ps.

Example C95_nontrivial :
  let '(made, t', r) := made_of produced [p_zip; p_doc] in
  r = Ok tt /\
  map (fun m : tree => map (fun f => m !! f) ["/w/install/etc/zip.conf"; "/w/install/etc/zip.sh"; "/w/install/etc/sample"; "/w/install/usr/doc/zip.conf"; "/w/install/usr/bin/zip"]) made =
  [[Some ("conf", 384%N); Some ("script", 493%N); None; None; None];
   [None; None; None; Some ("conf", 384%N); Some ("program", 493%N)]].
Proof. vm_compute. split; reflexivity. Qed.

Lemma inst_ok : install_place inst.
Proof. split; [discriminate|]. intros K. assert (py_endswith inst "/" = true) as E by now apply endswith_iff. vm_compute in E. discriminate. Qed.
Ltac rel := repeat first [apply rel_name; [discriminate|unfold free_of; vm_compute; intuition discriminate]
                         | (match goal with |- relative_path "etc/zip.conf" => apply (rel_under "etc" "zip.conf") | |- relative_path "etc/zip.sh" => apply (rel_under "etc" "zip.sh")
                                           | |- relative_path "etc/sample" => apply (rel_under "etc" "sample") | |- relative_path "usr/doc/zip.conf" => apply (rel_under "usr" "doc/zip.conf")
                                           | |- relative_path "doc/zip.conf" => apply (rel_under "doc" "zip.conf") end; [discriminate|unfold free_of; vm_compute; intuition discriminate|])].
Lemma targets_ok : forall pk af, In pk [p_zip; p_doc] -> In af (ap_files pk) -> good_target (af_target af).
Proof.
  intros pk af [<-|[<-|[]]]; intros [<-|[<-|[]]]; cbn [af_target].
  - exists "etc/zip.conf". split; [reflexivity|rel].
  - exists "etc/zip.sh". split; [reflexivity|rel].
  - exists "usr/doc/zip.conf". split; [reflexivity|rel].
  - exists "etc/sample". split; [reflexivity|rel].
Qed.

(** The full claim that packaging again gives the same packages: an additional file of a later
    package goes into an earlier one the second time. *)
Theorem C95_again_refuted :
  ~ (forall sources umask install strip pkgs t made t1 made2 t2,
       install_place install -> (forall pk af, In pk pkgs -> In af (ap_files pk) -> good_target (af_target af)) ->
       (exists h : string -> string -> string, (forall f c, h f (h f c) = h f c) /\
          forall u f, strip u !! f = match u !! f with Some (c, m) => Some (h f c, m) | None => None end) ->
       make_packages sources umask install strip t pkgs = (made, t1, Ok tt) ->
       make_packages sources umask install strip t1 pkgs = (made2, t2, Ok tt) -> made2 = made).
Proof.
  intros H. specialize (H beside_spec 18%N inst (fun t => t) [p_zip; p_doc] produced (made_of produced [p_zip; p_doc]).1.1 (made_of produced [p_zip; p_doc]).1.2
    (made_of (made_of produced [p_zip; p_doc]).1.2 [p_zip; p_doc]).1.1 (made_of (made_of produced [p_zip; p_doc]).1.2 [p_zip; p_doc]).1.2 inst_ok targets_ok).
  assert (exists h : string -> string -> string, (forall f c, h f (h f c) = h f c) /\
          forall (u : tree) f, u !! f = match u !! f with Some (c, m) => Some (h f c, m) | None => None end) as S.
  { exists (fun _ c => c). split; [reflexivity|]. intros u f. now destruct (u !! f) as [[c m]|]. }
  specialize (H S). assert ((made_of produced [p_zip; p_doc]).2 = Ok tt /\ (made_of (made_of produced [p_zip; p_doc]).1.2 [p_zip; p_doc]).2 = Ok tt) as [R1 R2] by (vm_compute; split; reflexivity).
  assert (forall x : list tree * tree * res unit, x.2 = Ok tt -> x = (x.1.1, x.1.2, Ok tt)) as T by (intros [[a b] c] E; cbn in *; now subst).
  specialize (H (T _ R1) (T _ R2)).
  apply (f_equal (fun l : list tree => match l with m :: _ => match m !! "/w/install/etc/sample" with Some _ => true | None => false end | [] => false end)) in H.
  match type of H with ?x = ?y => assert (x = true) as E1 by (vm_compute; reflexivity); assert (y = false) as E2 by (vm_compute; reflexivity) end. rewrite E1, E2 in H. discriminate H.
Qed.
Print Assumptions C95_again_refuted.

(** The full claim that additional files are in the package: one that no path of the package
    covers is left out without a word, and so is one whose target lacks the slash. *)
Definition p_bare := mkApkg [mkAdd "zip.conf" "etc/zip.conf" None] (takes_in "").
Theorem C95_included_refuted :
  ~ (forall sources umask install pkgs t made t' k pk m af,
       install_place install -> make_packages sources umask install (fun t => t) t pkgs = (made, t', Ok tt) ->
       made !! k = Some m -> pkgs !! k = Some pk -> In af (ap_files pk) -> good_target (af_target af) -> is_Some (m !! (install ++ af_target af))) /\
  ~ (forall sources umask install pkgs t made t' k pk m af,
       install_place install -> make_packages sources umask install (fun t => t) t pkgs = (made, t', Ok tt) ->
       made !! k = Some m -> pkgs !! k = Some pk -> (forall f, ap_takes pk (install ++ "/" ++ f) = true) ->
       In af (ap_files pk) -> relative_path (af_target af) -> is_Some (m !! (install ++ "/" ++ af_target af))).
Proof.
  split; intros H.
  - assert (let '(made, _, r) := made_of produced [p_zip; p_doc] in
            (match r with Ok _ => true | Err _ => false end) && (match made !! 1%nat with Some m => match m !! "/w/install/etc/sample" with None => true | _ => false end | None => false end) = true) as F
      by (vm_compute; reflexivity).
    specialize (H beside_spec 18%N inst [p_zip; p_doc] produced). change (make_packages beside_spec 18%N inst (fun t => t) produced [p_zip; p_doc]) with (made_of produced [p_zip; p_doc]) in H.
    destruct (made_of produced [p_zip; p_doc]) as [[made t'] r]. apply andb_true_iff in F as [F1 F2]. destruct r as [[]|]; [|discriminate].
    destruct (made !! 1%nat) as [m|] eqn:M; [|discriminate].
    assert (In (mkAdd "zip.conf" "/etc/sample" None) (ap_files p_doc)) as I by (right; now left).
    destruct (H made t' 1%nat p_doc m _ inst_ok eq_refl M eq_refl I (targets_ok p_doc _ (or_intror (or_introl eq_refl)) I)) as [x X].
    change (inst ++ af_target (mkAdd "zip.conf" "/etc/sample" None)) with "/w/install/etc/sample" in X. rewrite X in F2. discriminate.
  - assert (let '(made, _, r) := made_of ∅ [p_bare] in
            (match r with Ok _ => true | Err _ => false end) && (match made !! 0%nat with Some m => match m !! "/w/install/etc/zip.conf" with None => true | _ => false end | None => false end) = true) as F
      by (vm_compute; reflexivity).
    specialize (H beside_spec 18%N inst [p_bare] ∅). change (make_packages beside_spec 18%N inst (fun t => t) ∅ [p_bare]) with (made_of ∅ [p_bare]) in H.
    destruct (made_of ∅ [p_bare]) as [[made t'] r]. apply andb_true_iff in F as [F1 F2]. destruct r as [[]|]; [|discriminate].
    destruct (made !! 0%nat) as [m|] eqn:M; [|discriminate].
    destruct (H made t' 0%nat p_bare m (mkAdd "zip.conf" "etc/zip.conf" None) inst_ok eq_refl M eq_refl) as [x X].
    + intros f. change (takes_in "" (inst ++ "/" ++ f) = true). unfold takes_in. apply startswith_iff. exists f. reflexivity.
    + now left.
    + change (relative_path "etc/zip.conf"). rel.
    + change (inst ++ "/" ++ af_target (mkAdd "zip.conf" "etc/zip.conf" None)) with "/w/install/etc/zip.conf" in X. rewrite X in F2. discriminate.
Qed.
Print Assumptions C95_included_refuted.

(** The hypotheses of the theorem on packaging again are met. *)
Definition p_doc' := mkApkg [mkAdd "zip.conf" "/usr/doc/zip.conf" (Some "0600")] (takes_in "/usr").
Example C95_again_nontrivial :
  forall k j pk pj af, (k < j)%nat -> [p_zip; p_doc'] !! k = Some pk -> [p_zip; p_doc'] !! j = Some pj -> In af (ap_files pj) -> ap_takes pk (inst ++ af_target af) = false.
Proof.
  intros [|[|k]] [|[|j]] pk pj af L P Q I; try lia; try discriminate. injection P as <-. injection Q as <-. destruct I as [<-|[]]. reflexivity.
Qed.
Example C95_twice_nontrivial :
  let '(made, t1, r) := made_of produced [p_zip; p_doc'] in
  let '(made2, _, r2) := made_of t1 [p_zip; p_doc'] in r = Ok tt /\ r2 = Ok tt /\ length made2 = 2%nat.
Proof. vm_compute. repeat split. Qed.
