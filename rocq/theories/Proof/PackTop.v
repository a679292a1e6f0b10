(** * From a build to an installation *)
From Coq Require Import String Ascii List Bool Arith Lia.
From stdpp Require Import gmap strings.
From Verif Require Import Proof.GraphFacts.
From Verif Require Import Model.Py Model.ItemByRepo Model.Dependency Model.Package Model.ComponentDB Model.Databases
  Model.InstallDB Model.System Model.Graph Model.Plan Model.Path Model.Fs Model.Contents Model.Ops Model.Check Model.Pack
  Spec.PathSpec Spec.ContentsSpec Spec.FsSpec Spec.OpsSpec Spec.CheckSpec Spec.PackSpec
  Proof.PyFacts Proof.PathFacts Proof.FsFacts Proof.OpsFacts Proof.RemoveFiles Proof.KeepConfig Proof.CheckFacts Proof.ContentsFacts Proof.ContentsTop Proof.PackFacts Proof.Frame.
Open Scope string_scope.

Lemma frame_everywhere h o k i a w w' r : destination (o_dest o) -> relative_paths k -> install_package h o k i a w = (w', r) ->
  forall f, f = w_fs w' \/ (exists s, crash_point w w' (s, f)) -> forall q,
  own_place (o_dest o) k q \/ (k_format k = Zip /\ below_a_link (o_dest o) k q) \/ f !! q = w_fs w !! q \/
  (w_fs w !! q = None /\ f !! q = Some Fs.NDir /\ on_the_way (o_dest o) k q).
Proof.
  intros D R H f Hf q. pose proof (framed_install h o D k R (w_fs w) i a w eq_refl) as [K (new & En & Fn)]. rewrite H in K, En. cbn [fst] in K, En.
  assert (F : framed o k (w_fs w) f).
  { destruct Hf as [->|(s & m & Em & Hm)]; [exact K|]. rewrite En in Em. apply app_inv_tail in Em. subst m. rewrite List.Forall_forall in Fn. exact (Fn _ Hm). }
  destruct (F q) as [[O|O]|[E|E]]; auto.
Qed.

Section round_trip.
  Context (sha1 : string -> string) (install : string) (t : Contents.node) (pkgs : list (list pathinfo)).
  Context (Pd : proper_dir install) (W : well_formed t) (X : all_explicit pkgs) (U : unambiguous install t pkgs).
  Context (listed : gmap string fileinfo -> list (string * fileinfo)) (L : forall d, listed d ≡ₚ map_to_list d).
  Context (j : nat) (pkg : package) (fmt : format).

  Lemma built_installed k h o i a w w' f x : build_package sha1 install t listed pkgs j pkg fmt = Ok k -> no_side_names t ->
    destination (o_dest o) -> install_package h o k i a w = (w', Ok tt) -> belongs t pkgs j f -> lies_at t f x ->
    (listed_config k (short f) \/ x = Contents.NDir [] -> w_fs w !! located (o_dest o) (short f) = None \/
       (w_fs w !! located (o_dest o) (short f) = Some Fs.NDir /\ x = Contents.NDir [])) ->
    exists n, w_fs w' !! located (o_dest o) (short f) = Some n /\ becomes x n.
  Proof.
    intros E NS D H B Lx Fit. destruct (build_cases sha1 install t pkgs Pd W X U listed L j pkg fmt) as [(_ & k' & E' & _ & _ & Hh & _ & _ & O)|[_ E']]; rewrite E in E'; [|discriminate E']. injection E' as <-.
    specialize (O NS). assert (S : exists e, stored x e /\ becomes x (installed_as e) /\ (e = ADir -> x = Contents.NDir [])).
    { destruct B as (y & p & [Ly P] & _). assert (y = x) as -> by exact (lies_fun _ _ _ _ W Ly Lx).
      destruct x as [c|g to|es]; [exists (AFile c)|exists (ALink g)|exists ADir]; (split; [|split]); try constructor; try discriminate; rewrite (P es eq_refl); constructor || reflexivity. }
    destruct S as (e & Se & Be & De). exists (installed_as e). split; [|exact Be].
    apply (there h o D k O (short f) e) with i a w; [apply Hh; eauto 6| |exact H].
    intros K. destruct Fit as [Q|[Q ->]]; [destruct K as [K| ->]; [now left|right; now apply De]|now left|right; split; [exact Q|now inversion Se]].
  Qed.
End round_trip.

(** For examples *)
Definition plain_check (t : Contents.node) : bool := forallb (fun f => negb (py_endswith (short f) ".old" || py_endswith (short f) ".newconfig")) (leaves t).
Lemma plain_check_ok t : plain_check t = true -> no_side_names t.
Proof. unfold plain_check. rewrite forallb_forall. intros H f x P (q & Q). specialize (H f (leaves_all t f x P)). apply negb_true_iff, orb_false_iff in H as [H1 H2]. apply not_true_iff_false in H1, H2.
  destruct Q as [Q|Q]; [apply H1|apply H2]; apply endswith_iff; exists q; exact Q. Qed.
