(** * What the commands do with their options *)
From Coq Require Import String Ascii ZArith List Bool Lia Arith.
From stdpp Require Import gmap strings.
From Verif Require Import Model.Py Model.Package Model.ItemByRepo Model.ComponentDB Model.Databases Model.InstallDB Model.System Model.Plan Model.Path Model.Ops Model.Security.
Require Import Verif.Prop.OpsProps.
From Verif Require Import Model.CommandLine Spec.PathSpec Spec.OpsSpec Spec.CommandLineSpec Proof.PyFacts Proof.SecurityTop Proof.CommandLineFacts Proof.CommandLineTop.
Import ListNotations.
Open Scope string_scope.

(** ** Values *)
Definition dests_b (t : list opt) : bool := if decide (base.NoDup (map dest t)) then true else false.
Lemma table_dests k t : make_parser k = Ok t -> base.NoDup (map dest t).
Proof.
  intros E. assert (G : dests_b t = true) by (destruct k; vm_compute in E; try discriminate E; injection E as <-; vm_compute; reflexivity). unfold dests_b in G. destruct (decide _) as [D|]; [exact D|discriminate G].
Qed.
Lemma dest_inj t o o' : base.NoDup (map dest t) -> In o t -> In o' t -> dest o = dest o' -> o = o'.
Proof.
  induction t as [|a t IH]; intros N I I' E; [destruct I|]. cbn in N. apply NoDup_cons in N as [A N]. destruct I as [<-|I], I' as [<-|I']; auto.
  - destruct A. rewrite E. apply elem_of_list_In, in_map, I'.
  - destruct A. rewrite <- E. apply elem_of_list_In, in_map, I.
Qed.
Lemma table_flags k t o : make_parser k = Ok t -> In o t -> opt_kind o = Flag -> opt_default o = VBool false.
Proof.
  intros E I K. assert (G : forallb (fun o => match opt_kind o, opt_default o with Flag, VBool false => true | Flag, _ => false | _, _ => true end) t = true) by (destruct k; vm_compute in E; try discriminate E; injection E as <-; vm_compute; reflexivity).
  rewrite forallb_forall in G. specialize (G o I). rewrite K in G. destruct (opt_default o) as [|[]| |]; congruence.
Qed.

Section values.
  Variable number : string -> option Z.
  Variable t : list opt.
  Lemma flags_values fs l d y : flags t fs l -> In (d, y) l -> exists o, In o t /\ dest o = d /\ opt_kind o = Flag /\ y = VBool true.
  Proof. intros F. induction F as [|c fs o l [I A] K F IH]; intros J; [destruct J|]. destruct J as [E|J]; [injection E as <- <-; now exists o|now apply IH]. Qed.
  Lemma means_values i l d y : means number t i l -> In (d, y) l -> exists o, In o t /\ dest o = d /\ (opt_kind o = Flag /\ y = VBool true \/ exists x, takes number o x y).
  Proof.
    intros M I. destruct M as [w B|n o N F [C _] K|n x o z F [C _] T|n x o z N F [C _] T|fs l N F|fs l c x o z F [A _] N T|fs l c x o z F [A _] T].
    - destruct I.
    - destruct I as [E|[]]. injection E as <- <-. exists o. repeat split; auto.
    - destruct I as [E|[]]. injection E as <- <-. exists o. split; [exact C|]. split; [reflexivity|right; now exists x].
    - destruct I as [E|[]]. injection E as <- <-. exists o. split; [exact C|]. split; [reflexivity|right; now exists x].
    - destruct (flags_values fs l d y F I) as (o & Io & Ed & K & Ey). exists o. auto.
    - apply in_app_iff in I as [I|[E|[]]]; [destruct (flags_values fs l d y F I) as (o' & Io & Ed & K & Ey); exists o'; auto|]. injection E as <- <-. exists o. split; [exact A|]. split; [reflexivity|right; now exists x].
    - apply in_app_iff in I as [I|[E|[]]]; [destruct (flags_values fs l d y F I) as (o' & Io & Ed & K & Ey); exists o'; auto|]. injection E as <- <-. exists o. split; [exact A|]. split; [reflexivity|right; now exists x].
  Qed.
  Lemma meaning_values is l d y : meaning number t is l -> In (d, y) l -> exists o, In o t /\ dest o = d /\ (opt_kind o = Flag /\ y = VBool true \/ exists x, takes number o x y).
  Proof.
    intros (ls & F & ->) I. apply in_concat in I as (l & Il & I). revert Il. induction F as [|i l' is ls M F IH]; intros Il; [destruct Il|]. destruct Il as [->|Il]; [exact (means_values i l d y M I)|now apply IH].
  Qed.
End values.

Lemma set_all_none v l d : (forall y, ~ In (d, y) l) -> set_all v l !! d = v !! d.
Proof.
  revert v. induction l as [|[d' y'] l IH]; intros v N; [reflexivity|]. unfold set_all. cbn [fold_left fst snd]. change (set_all (<[d':=y']> v) l !! d = v !! d). rewrite IH by (intros y I; apply (N y); now right).
  apply lookup_insert_ne. intros ->. apply (N y'). now left.
Qed.
Lemma set_all_last v a b d y : (forall y', ~ In (d, y') b) -> set_all v (a ++ (d, y) :: b) !! d = Some y.
Proof. intros N. rewrite set_all_app. unfold set_all at 1. cbn [fold_left fst snd]. change (set_all (<[d:=y]> (set_all v a)) b !! d = Some y). rewrite set_all_none by exact N. apply lookup_insert. Qed.
Lemma last_setting (l : list (string * value)) d : (forall y, ~ In (d, y) l) \/ exists a b y, l = (a ++ (d, y) :: b)%list /\ forall y', ~ In (d, y') b.
Proof.
  induction l as [|[d' y'] l IH]; [left; intros y []|]. destruct IH as [N|(a & b & y & -> & N)].
  - destruct (String.eqb d' d) eqn:E; [apply String.eqb_eq in E; subst d'; right; exists [], l, y'; now split|]. apply String.eqb_neq in E. left. intros y [K|K]; [injection K as -> _; congruence|now apply (N y)].
  - right. exists ((d', y') :: a), b, y. now split.
Qed.

Lemma default_value t o : base.NoDup (map dest t) -> In o t -> shows o = false -> defaults t !! dest o = Some (opt_default o).
Proof.
  intros N I W. unfold defaults. apply elem_of_list_to_map_1.
  - clear I W. induction t as [|a t IH]; [constructor|]. cbn in N. apply NoDup_cons in N as [A N]. rewrite filter_cons. destruct (decide _); [|now apply IH]. cbn. apply NoDup_cons. split; [|now apply IH].
    intros K. apply A. apply elem_of_list_In in K. apply elem_of_list_In. apply in_map_iff in K as ([d y] & E & K). apply in_map_iff in K as (o' & E' & K). injection E' as <- <-. cbn in E. rewrite <- E. apply elem_of_list_In, elem_of_list_filter in K as [_ K]. apply in_map. now apply elem_of_list_In.
  - apply elem_of_list_In, in_map_iff. exists o. split; [reflexivity|]. apply elem_of_list_In, elem_of_list_filter. split; [exact W|now apply elem_of_list_In].
Qed.
Lemma no_default t d : (forall o, In o t -> dest o <> d) -> defaults t !! d = None.
Proof.
  intros N. unfold defaults. apply not_elem_of_list_to_map_1. intros K. apply elem_of_list_In, in_map_iff in K as ([d' y] & E & K). apply in_map_iff in K as (o' & E' & K). injection E' as <- <-. cbn in E. apply (N o'); [|exact E]. apply elem_of_list_In, elem_of_list_filter in K as [_ K]. now apply elem_of_list_In.
Qed.

Section given.
  Variable number : string -> option Z.
  (** A switch is on exactly if it is given; one that the command does not know is off. *)
  Theorem flag_on k t is l o : make_parser k = Ok t -> meaning number t is l -> In o t -> opt_kind o = Flag ->
    (on (set_all (defaults t) l) (dest o) = true <-> exists y, In (dest o, y) l).
  Proof.
    intros T M I K. pose proof (table_dests k t T) as D. assert (W : shows o = false) by (unfold shows; now rewrite K). unfold on. destruct (last_setting l (dest o)) as [N|(a & b & y & -> & N)].
    - rewrite (set_all_none _ l _ N), (default_value t o D I W), (table_flags k t o T I K). split; [intros X; discriminate X|]. intros [y Y]. now destruct (N y).
    - rewrite (set_all_last _ a b _ y N). destruct (meaning_values number t is _ (dest o) y M) as (o' & I' & E & V); [apply in_app_iff; right; now left|]. assert (o' = o) by now apply (dest_inj t). subst o'.
      assert (y = VBool true) as ->. { destruct V as [[_ ->]|[x V]]; [reflexivity|]. apply takes_wants in V. unfold takes_value in V. rewrite K in V. discriminate V. }
      split; [intros _; exists (VBool true); apply in_app_iff; right; now left|reflexivity].
  Qed.
  Theorem unknown_off k t is l d : make_parser k = Ok t -> meaning number t is l -> (forall o, In o t -> dest o <> d) -> on (set_all (defaults t) l) d = false.
  Proof.
    intros T M N. unfold on. rewrite set_all_none, (no_default t d N); [reflexivity|]. intros y I. destruct (meaning_values number t is l d y M I) as (o & Io & E & _). now destruct (N o Io).
  Qed.
  (** An option with a value has the last one given. *)
  Theorem text_value k t is l o : make_parser k = Ok t -> meaning number t is l -> In o t -> opt_kind o = Text ->
    ((forall y, ~ In (dest o, y) l) -> set_all (defaults t) l !! dest o = Some (opt_default o)) /\
    (forall a b y, l = (a ++ (dest o, y) :: b)%list -> (forall y', ~ In (dest o, y') b) -> set_all (defaults t) l !! dest o = Some y /\ exists x, y = VText x).
  Proof.
    intros T M I K. pose proof (table_dests k t T) as D. assert (W : shows o = false) by (unfold shows; now rewrite K). split.
    - intros N. now rewrite (set_all_none _ l _ N), (default_value t o D I W).
    - intros a b y -> N. split; [exact (set_all_last _ a b _ y N)|]. destruct (meaning_values number t is _ (dest o) y M) as (o' & I' & E & V); [apply in_app_iff; right; now left|]. assert (o' = o) by now apply (dest_inj t). subst o'.
      destruct V as [[V _]|[x [[_ V]|[V _]]]]; [congruence|now exists x|congruence].
  Qed.
End given.

(** ** Runs *)
Section run.
  Variable h : host.
  Variable realpath : string -> string.
  Variable configured : string.
  Variable update_repo : string -> M unit.
  Variable repos : sys -> list string.
  Variable history : package -> list update.
  Variable other : CommandLine.command -> settings -> list string -> M unit.
  Variable number : string -> option Z.
  Notation pisi := (pisi h realpath configured update_repo repos history other number).

  Lemma start_of argv c k t is tail l : first_bare argv c -> named c k -> make_parser k = Ok t -> says number t argv is tail l ->
    start number argv = Runs k (set_all (defaults t) l) (tl (concat (map word is) ++ tail)).
  Proof. intros F N T S. apply start_exact. exists c, t, is, tail, l. split; [exact F|]. split; [exact N|]. split; [exact T|]. split; [exact S|]. now split. Qed.

  Definition find_opt (n : string) (t : list opt) : option opt := find (fun o => String.eqb (dest o) n) t.
  Lemma has_flag k t is l n : make_parser k = Ok t -> meaning number t is l -> match find_opt n t with Some o => opt_kind o = Flag | None => False end -> (exists y, In (n, y) l) -> on (set_all (defaults t) l) n = true.
  Proof.
    intros T M F G. destruct (find_opt n t) as [o|] eqn:E; [|destruct F]. apply find_some in E as [I E]. apply String.eqb_eq in E. subst n. now apply (flag_on number k t is l o T M I F).
  Qed.
  Lemma lacks_flag k t is l n : make_parser k = Ok t -> meaning number t is l -> match find_opt n t with Some o => opt_kind o = Flag | None => False end -> (forall y, ~ In (n, y) l) -> on (set_all (defaults t) l) n = false.
  Proof.
    intros T M F G. destruct (find_opt n t) as [o|] eqn:E; [|destruct F]. apply find_some in E as [I E]. apply String.eqb_eq in E. subst n. pose proof (flag_on number k t is l o T M I F) as [X _]. destruct (on _ _); [|reflexivity]. destruct (X eq_refl) as [y Y]. now destruct (G y).
  Qed.

  Lemma dry_run argv c k t is tail l w : first_bare argv c -> named c k -> make_parser k = Ok t -> says number t argv is tail l -> (exists y, In ("dry_run", y) l) ->
    (k = Remove \/
     k = Install /\ (forall x r, tl (concat (map word is) ++ tail)%list = x :: r -> py_endswith x package_suffix = false) \/
     k = Upgrade /\ (exists y, In ("bypass_update_repo", y) l)) ->
    untouched w (pisi argv w).1.
  Proof.
    intros F N T S D K. unfold CommandLine.pisi. rewrite (start_of argv c k t is tail l F N T S). set (args := tl _) in *. destruct S as [M _]. set (v := set_all (defaults t) l) in *.
    assert (Dr : k = Remove \/ k = Install \/ k = Upgrade -> on v "dry_run" = true). { intros Kk. apply (has_flag k t is l); auto. destruct Kk as [->|[->| ->]]; vm_compute in T; injection T as <-; vm_compute; reflexivity. }
    destruct K as [->|[[-> A]|(-> & R)]].
    - specialize (Dr (or_introl eq_refl)). unfold run_remove. destruct args as [|a args]; [cbn; repeat split|]. unfold bindM. pose proof (C21_remove (answering v h) (os_ realpath configured v) (a :: args) false w Dr) as U.
      destruct (remove _ _ _ _ w) as [w' [b|e]]; exact U.
    - specialize (Dr (or_intror (or_introl eq_refl))). unfold run_install. destruct args as [|a args]; [cbn; repeat split|]. apply (C21_install_partial (answering v h) (os_ realpath configured v) (a :: args) (on v "reinstall") w Dr).
      right. exact A.
    - specialize (Dr (or_intror (or_intror eq_refl))). assert (Rb : on v "bypass_update_repo" = true). { apply (has_flag Upgrade t is l); auto. vm_compute in T; injection T as <-; vm_compute; reflexivity. }
      unfold run_upgrade. rewrite Rb. unfold bindM, ret, look. cbn [fst snd]. set (q := match args with [] => _ | _ => _ end). destruct (on v "security").
      + pose proof (dry_security (answering v h) (os_ realpath configured v) Dr history q w) as U. destruct (upgrade_security _ _ _ _ w) as [w' [b|e]]; exact U.
      + pose proof (C21_upgrade (answering v h) (os_ realpath configured v) q w Dr) as U. destruct (upgrade_pkg_names _ _ _ w) as [w' [b|e]]; exact U.
  Qed.
End run.

(** ** The operations that a line comes to *)
(** The switch is on exactly if the line gives it, whether or not the command knows it. *)
Definition switches : list string :=
  ["dry_run"; "ignore_dependency"; "bypass_safety"; "ignore_build_no"; "eager"; "ignore_file_conflicts"; "ignore_comar"; "yes_all"; "reinstall"; "security"; "bypass_update_repo"].
Lemma switch_kinds k t o : make_parser k = Ok t -> In o t -> In (dest o) switches -> opt_kind o = Flag.
Proof.
  intros T I S. assert (G : forallb (fun o => if decide (In (dest o) switches) then match opt_kind o with Flag => true | _ => false end else true) t = true) by (destruct k; vm_compute in T; try discriminate T; injection T as <-; vm_compute; reflexivity).
  rewrite forallb_forall in G. specialize (G o I). destruct (decide _) as [_|N]; [|contradiction]. destruct (opt_kind o); congruence.
Qed.
Lemma switch_iff number k t is l d : make_parser k = Ok t -> meaning number t is l -> In d switches ->
  (on (set_all (defaults t) l) d = true <-> exists y, In (d, y) l).
Proof.
  intros T M S. destruct (find_opt d t) as [o|] eqn:E.
  - apply find_some in E as [I E]. apply String.eqb_eq in E. subst d. apply (flag_on number k t is l o T M I). now apply (switch_kinds k t).
  - assert (N : forall o, In o t -> dest o <> d). { intros o I X. pose proof (find_none _ _ E o I) as Y. cbn in Y. rewrite X, String.eqb_refl in Y. discriminate Y. }
    rewrite (unknown_off number k t is l d T M N). split; [intros X; discriminate X|]. intros [y Y]. destruct (meaning_values number t is l d y M Y) as (o & I & X & _). now destruct (N o I).
Qed.

Section reach.
  Variable h : host.
  Variable realpath : string -> string.
  Variable configured : string.
  Variable update_repo : string -> M unit.
  Variable repos : sys -> list string.
  Variable history : package -> list update.
  Variable other : CommandLine.command -> settings -> list string -> M unit.
  Variable number : string -> option Z.
  Notation pisi := (pisi h realpath configured update_repo repos history other number).

  Lemma yes_exact k t is l : make_parser k = Ok t -> meaning number t is l -> answers_with l h (answering (set_all (defaults t) l) h).
  Proof.
    intros T M. pose proof (switch_iff number k t is l "yes_all" T M) as Q. cbn in Q. specialize (Q ltac:(tauto)). unfold answers_with, answering, gives. cbn. split; [repeat split|]. split; intros G.
    - intros lg q. now rewrite (proj2 Q G).
    - destruct (on (set_all (defaults t) l) "yes_all") eqn:E; [destruct G; now apply Q|]. reflexivity.
  Qed.
  Lemma destdir_kind k t : make_parser k = Ok t -> exists o, In o t /\ dest o = "destdir" /\ opt_kind o = Text /\ opt_default o = VNone.
  Proof.
    intros T. assert (G : existsb (fun o => if decide (dest o = "destdir") then match opt_kind o, opt_default o with Text, VNone => true | _, _ => false end else false) t = true) by (destruct k; vm_compute in T; try discriminate T; injection T as <-; vm_compute; reflexivity).
    apply existsb_exists in G as (o & I & G). exists o. split; [exact I|]. destruct (decide _) as [E|]; [|discriminate G]. split; [exact E|]. destruct (opt_kind o), (opt_default o); try discriminate G. now split.
  Qed.
  Lemma dest_exact k t is l : make_parser k = Ok t -> meaning number t is l -> goes_to realpath configured l (destination realpath configured (set_all (defaults t) l)).
  Proof.
    intros T M. destruct (destdir_kind k t T) as (o & I & E & K & D). destruct (text_value number k t is l o T M I K) as [V0 V1]. rewrite E in V0, V1. unfold destination, goes_to, gives. split.
    - intros N. rewrite V0; [now rewrite D|]. intros y Y. apply N. now exists y.
    - intros a b x El N. destruct (V1 a b (VText x) El) as [V _]; [intros y Y; apply N; now exists y|]. now rewrite V.
  Qed.
  Lemma options_exact k t is l : make_parser k = Ok t -> meaning number t is l -> given_options l (os_ realpath configured (set_all (defaults t) l)).
  Proof.
    intros T M. pose proof (fun d => switch_iff number k t is l d T M) as K. set (v := set_all (defaults t) l) in *.
    unfold given_options, os_, opts_of, gives. cbn [o_ignore_dependency o_bypass_safety o_dry_run o_ignore_build o_eager o_ignore_file_conflicts o_comar].
    repeat (split; [apply K; cbn; tauto|]). pose proof (K "ignore_comar") as Q. specialize (Q ltac:(cbn; tauto)). rewrite <- Q. cbn. destruct (on v "ignore_comar"); cbn; split; congruence.
  Qed.

  Theorem runs_install argv c t is tail l w : first_bare argv c -> named c Install -> make_parser Install = Ok t -> says number t argv is tail l ->
    exists h' o r, given_options l o /\ answers_with l h h' /\ goes_to realpath configured l (o_dest o) /\ (r = true <-> gives l "reinstall") /\
      pisi argv w = match tl (concat (map word is) ++ tail) with [] => (w, Ok tt) | args => install h' o args r w end.
  Proof.
    intros F N T S. unfold CommandLine.pisi. rewrite (start_of number argv c Install t is tail l F N T S). destruct S as [M _]. set (args := tl _).
    exists (answering (set_all (defaults t) l) h), (os_ realpath configured (set_all (defaults t) l)), (on (set_all (defaults t) l) "reinstall").
    split; [now apply (options_exact Install t is)|]. split; [now apply (yes_exact Install t is)|]. split; [now apply (dest_exact Install t is)|]. split; [apply (switch_iff number Install t is l _ T M); cbn; tauto|].
    unfold run_install. now destruct args.
  Qed.
  Theorem runs_remove argv c t is tail l w : first_bare argv c -> named c Remove -> make_parser Remove = Ok t -> says number t argv is tail l ->
    exists h' o, given_options l o /\ answers_with l h h' /\ goes_to realpath configured l (o_dest o) /\
      match tl (concat (map word is) ++ tail) with
      | [] => pisi argv w = (w, Ok tt)
      | args => (pisi argv w).1 = (remove h' o args false w).1 /\ (forall e, (pisi argv w).2 = Err e <-> (remove h' o args false w).2 = Err e)
      end.
  Proof.
    intros F N T S. unfold CommandLine.pisi. rewrite (start_of number argv c Remove t is tail l F N T S). destruct S as [M _]. set (args := tl _).
    exists (answering (set_all (defaults t) l) h), (os_ realpath configured (set_all (defaults t) l)).
    split; [now apply (options_exact Remove t is)|]. split; [now apply (yes_exact Remove t is)|]. split; [now apply (dest_exact Remove t is)|].
    unfold run_remove. destruct args as [|a args]; [reflexivity|]. unfold bindM. destruct (remove _ _ (a :: args) false w) as [w' [b|e]]; cbn; split; try reflexivity; intros e'; split; congruence.
  Qed.
  Theorem runs_configure argv c t is tail l w : first_bare argv c -> named c ConfigurePending -> make_parser ConfigurePending = Ok t -> says number t argv is tail l ->
    exists h' o, given_options l o /\ answers_with l h h' /\ goes_to realpath configured l (o_dest o) /\ pisi argv w = configure_pending h' o w.
  Proof.
    intros F N T S. unfold CommandLine.pisi. rewrite (start_of number argv c ConfigurePending t is tail l F N T S). destruct S as [M _].
    exists (answering (set_all (defaults t) l) h), (os_ realpath configured (set_all (defaults t) l)).
    split; [now apply (options_exact ConfigurePending t is)|]. split; [now apply (yes_exact ConfigurePending t is)|]. split; [now apply (dest_exact ConfigurePending t is)|]. reflexivity.
  Qed.
  (** Without --security; the repositories are brought up to date first unless the line says not to. *)
  Theorem runs_upgrade argv c t is tail l w : first_bare argv c -> named c Upgrade -> make_parser Upgrade = Ok t -> says number t argv is tail l -> ~ gives l "security" ->
    exists h' o, given_options l o /\ answers_with l h h' /\ goes_to realpath configured l (o_dest o) /\
    forall w1, gives l "bypass_update_repo" /\ w1 = w \/ ~ gives l "bypass_update_repo" /\ eachM update_repo (repos (w_sys w)) w = (w1, Ok tt) ->
    exists A, A = match tl (concat (map word is) ++ tail) with [] => list_installed (y_inst (w_sys w1)) | args => args end /\
      (pisi argv w).1 = (upgrade_pkg_names h' o A w1).1 /\ (forall e, (pisi argv w).2 = Err e <-> (upgrade_pkg_names h' o A w1).2 = Err e).
  Proof.
    intros F N T S G. unfold CommandLine.pisi. rewrite (start_of number argv c Upgrade t is tail l F N T S). destruct S as [M _]. set (args := tl _).
    exists (answering (set_all (defaults t) l) h), (os_ realpath configured (set_all (defaults t) l)).
    split; [now apply (options_exact Upgrade t is)|]. split; [now apply (yes_exact Upgrade t is)|]. split; [now apply (dest_exact Upgrade t is)|].
    intros w1 E. eexists. split; [reflexivity|]. unfold run_upgrade.
    assert (Sb : on (set_all (defaults t) l) "security" = false). { destruct (on _ "security") eqn:X; [|reflexivity]. destruct G. apply (switch_iff number Upgrade t is l _ T M); [cbn; tauto|exact X]. }
    pose proof (switch_iff number Upgrade t is l "bypass_update_repo" T M ltac:(cbn; tauto)) as B. fold (gives l "bypass_update_repo") in B.
    rewrite Sb. unfold bindM at 1. destruct E as [[D ->]|[D E]].
    - rewrite (proj2 B D). unfold bindM, look, ret. set (h' := answering _ h). set (o' := os_ _ _ _). destruct args as [|a0 args'];
        match goal with |- context [upgrade_pkg_names h' o' ?A w] => destruct (upgrade_pkg_names h' o' A w) as [w' [b|e]] end; cbn [fst snd]; (split; [reflexivity|]); intros e'; split; congruence.
    - rewrite <- B in D. apply not_true_iff_false in D. rewrite D. unfold bindM, look, ret. rewrite E. set (h' := answering _ h). set (o' := os_ _ _ _). destruct args as [|a0 args'];
        match goal with |- context [upgrade_pkg_names h' o' ?A w1] => destruct (upgrade_pkg_names h' o' A w1) as [w' [b|e]] end; cbn [fst snd]; (split; [reflexivity|]); intros e'; split; congruence.
  Qed.
  Theorem runs_security argv c t is tail l w : first_bare argv c -> named c Upgrade -> make_parser Upgrade = Ok t -> says number t argv is tail l -> gives l "security" ->
    exists h' o, given_options l o /\ answers_with l h h' /\ goes_to realpath configured l (o_dest o) /\
    forall w1, gives l "bypass_update_repo" /\ w1 = w \/ ~ gives l "bypass_update_repo" /\ eachM update_repo (repos (w_sys w)) w = (w1, Ok tt) ->
    exists A, A = match tl (concat (map word is) ++ tail) with [] => list_installed (y_inst (w_sys w1)) | args => args end /\
      (pisi argv w).1 = (upgrade_security h' o history A w1).1 /\ (forall e, (pisi argv w).2 = Err e <-> (upgrade_security h' o history A w1).2 = Err e).
  Proof.
    intros F N T S G. unfold CommandLine.pisi. rewrite (start_of number argv c Upgrade t is tail l F N T S). destruct S as [M _]. set (args := tl _).
    exists (answering (set_all (defaults t) l) h), (os_ realpath configured (set_all (defaults t) l)).
    split; [now apply (options_exact Upgrade t is)|]. split; [now apply (yes_exact Upgrade t is)|]. split; [now apply (dest_exact Upgrade t is)|].
    intros w1 E. eexists. split; [reflexivity|]. unfold run_upgrade.
    assert (Sb : on (set_all (defaults t) l) "security" = true). { apply (switch_iff number Upgrade t is l _ T M); [cbn; tauto|exact G]. }
    pose proof (switch_iff number Upgrade t is l "bypass_update_repo" T M ltac:(cbn; tauto)) as B. fold (gives l "bypass_update_repo") in B.
    rewrite Sb. unfold bindM at 1. destruct E as [[D ->]|[D E]].
    - rewrite (proj2 B D). unfold bindM, look, ret. set (h' := answering _ h). set (o' := os_ _ _ _). destruct args as [|a0 args'];
        match goal with |- context [upgrade_security h' o' history ?A w] => destruct (upgrade_security h' o' history A w) as [w' [b|e]] end; cbn [fst snd]; (split; [reflexivity|]); intros e'; split; congruence.
    - rewrite <- B in D. apply not_true_iff_false in D. rewrite D. unfold bindM, look, ret. rewrite E. set (h' := answering _ h). set (o' := os_ _ _ _). destruct args as [|a0 args'];
        match goal with |- context [upgrade_security h' o' history ?A w1] => destruct (upgrade_security h' o' history A w1) as [w' [b|e]] end; cbn [fst snd]; (split; [reflexivity|]); intros e'; split; congruence.
  Qed.
End reach.

(** ** Lines of a special form *)
Section special.
  Variable number : string -> option Z.
  Lemma words_meaning t ws : (forall p, In p ws -> bare p) -> List.Forall2 (means number t) (map Word ws) (map (fun _ => []) ws).
  Proof. induction ws as [|w ws IH]; intros B; [constructor|]. cbn. constructor; [constructor; apply B; now left|]. apply IH. intros p I. apply B. now right. Qed.
  Lemma words_nothing {A} (ws : list string) : concat (map (fun _ : string => @nil A) ws) = [].
  Proof. induction ws as [|w ws IH]; [reflexivity|exact IH]. Qed.
  Lemma words_spelled ws : concat (map spelled (map Word ws)) = ws.
  Proof. induction ws as [|w ws IH]; [reflexivity|]. cbn. now rewrite IH. Qed.
  Lemma words_words ws : concat (map word (map Word ws)) = ws.
  Proof. induction ws as [|w ws IH]; [reflexivity|]. cbn. now rewrite IH. Qed.
  Lemma hidden_command pkgs : (forall p, In p pkgs -> bare p) -> exists v, CommandLine.start number ("-u" :: "remove" :: "install" :: pkgs) = Runs Remove v pkgs.
  Proof.
    intros B. destruct (make_parser Remove) as [t|e] eqn:T; [|discriminate T]. eexists. apply start_exact.
    exists "remove", t, (ShortNext "" "u" "remove" :: Word "install" :: map Word pkgs), [], [("username", VText "remove")].
    split; [exists ["-u"], ("install" :: pkgs); split; [reflexivity|]; split; [right; intros [r R]; discriminate R|]; split; [discriminate|]; intros x [<-|[]]; split; [|discriminate]; intros [X|X]; [discriminate X|apply X; now exists "u"]|].
    split; [apply get_command_iff; reflexivity|]. split; [exact T|]. split; [|split; [reflexivity|cbn; now rewrite words_words, app_nil_r]].
    split; [|exists []; split; [cbn; now rewrite words_spelled, app_nil_r|left; now split]].
    exists ([("username", VText "remove")] :: [] :: map (fun _ => []) pkgs). split; [|cbn; now rewrite words_nothing].
    constructor; [|constructor; [constructor; right; intros [r R]; discriminate R|now apply words_meaning]].
    assert (O : letter t "u" (text "u" "username")). { vm_compute in T. injection T as <-. split; [vm_compute; tauto|reflexivity]. }
    exact (means_short_next number t "" [] "u" "remove" (text "u" "username") (VText "remove") (flags_nil t) O (or_introl (conj eq_refl eq_refl))).
  Qed.
  Lemma alone c k : named c k -> k <> Search -> k <> ListUpgrades -> exists t, make_parser k = Ok t /\ CommandLine.start number [c] = Runs k (defaults t) [].
  Proof.
    intros N A B. destruct (proj2 (table_exists k) (conj A B)) as [t T]. exists t. split; [exact T|].
    assert (Bc : bare c /\ c <> "--"). { destruct N as (lg & sh & I & C). revert I. unfold documented. cbn [In]. intros I. repeat (destruct I as [I|I]; [injection I as <- <- _; destruct C as [->|[-> C]]; (congruence || (split; [right; intros [r R]; discriminate R|discriminate]))|]). destruct I. }
    apply start_exact. exists c, t, [Word c], [], []. split; [exists [], []; split; [reflexivity|]; split; [apply Bc|]; split; [apply Bc|]; intros x []|]. split; [exact N|]. split; [exact T|]. split; [|now split].
    split; [exists [[]]; split; [|reflexivity]; constructor; [constructor; apply Bc|constructor]|]. exists []. split; [reflexivity|left; now split].
  Qed.
End special.
Definition option_row (o : opt) : string * string * bool := (match opt_short o with Some c => String c "" | None => "" end, opt_long o, takes_value o).
Lemma install_table : exists t, make_parser Install = Ok t /\
  (forall s n b, In (s, n, b) install_documented <-> exists o, In o t /\ opt_long o = n /\ s = match opt_short o with Some c => String c "" | None => "" end /\ b = takes_value o).
Proof.
  destruct (make_parser Install) as [t|e] eqn:T; [|discriminate T]. exists t. split; [reflexivity|]. assert (E : install_documented = map option_row t) by (vm_compute in T; injection T as <-; reflexivity). rewrite E. intros s n b. rewrite in_map_iff. unfold option_row. split.
  - intros (o & X & I). injection X as <- <- <-. now exists o.
  - intros (o & I & <- & -> & ->). now exists o.
Qed.
Lemma dry_line h realpath configured update_repo repos history other number argv c k t is tail l w :
  first_bare argv c -> named c k -> make_parser k = Ok t -> says number t argv is tail l -> gives l "dry_run" ->
  (k = Remove \/
   k = Install /\ (forall x r, tl (concat (map word is) ++ tail)%list = x :: r -> py_endswith x package_suffix = false) \/
   k = Upgrade /\ gives l "bypass_update_repo") ->
  untouched w (pisi h realpath configured update_repo repos history other number argv w).1.
Proof.
  intros F N T S D K. exact (dry_run h realpath configured update_repo repos history other number argv c k t is tail l w F N T S D K).
Qed.
Lemma refused h realpath configured update_repo repos history other number argv w :
  (forall n, CommandLine.start number argv = Exits n -> pisi h realpath configured update_repo repos history other number argv w = (w, Ok tt)) /\
  (forall e, CommandLine.start number argv = Fails e -> pisi h realpath configured update_repo repos history other number argv w = (w, Err e)).
Proof. unfold pisi. split; intros x ->; reflexivity. Qed.
Lemma general_options k t : make_parser k = Ok t -> forall c n d, In (c, n, d) general_documented -> exists o, In o t /\ opt_short o = Some c /\ opt_long o = n /\ opt_kind o = d.
Proof.
  intros T c n d I.
  assert (G : forallb (fun r => existsb (fun o => match opt_short o with Some c => Ascii.eqb c (fst (fst r)) | None => false end && String.eqb (opt_long o) (snd (fst r)) &&
    match opt_kind o, snd r with Flag, Flag | Text, Text | ShowHelp, ShowHelp => true | _, _ => false end) t) general_documented = true) by (destruct k; vm_compute in T; try discriminate T; injection T as <-; vm_compute; reflexivity).
  rewrite forallb_forall in G. specialize (G _ I). apply existsb_exists in G as (o & Io & G). apply andb_true_iff in G as [G G3]. apply andb_true_iff in G as [G1 G2]. cbn [fst snd] in *. exists o. split; [exact Io|].
  split; [destruct (opt_short o); [apply Ascii.eqb_eq in G1; now subst|discriminate G1]|]. split; [now apply String.eqb_eq|]. destruct (opt_kind o), d; congruence.
Qed.
Lemma text_lookup number k t is l n : make_parser k = Ok t -> meaning number t is l -> In n ["username"; "password"] ->
  (forall x, set_all (defaults t) l !! n = Some (VText x) <-> last_text l n x).
Proof.
  intros T M I x. assert (O : exists o, In o t /\ dest o = n /\ opt_kind o = Text /\ opt_default o = VNone).
  { assert (G : forallb (fun n => existsb (fun o => if decide (dest o = n) then match opt_kind o, opt_default o with Text, VNone => true | _, _ => false end else false) t) ["username"; "password"] = true) by (destruct k; vm_compute in T; try discriminate T; injection T as <-; vm_compute; reflexivity).
    rewrite forallb_forall in G. specialize (G n I). apply existsb_exists in G as (o & Io & G). exists o. split; [exact Io|]. destruct (decide _) as [E|]; [|discriminate G]. split; [exact E|]. destruct (opt_kind o), (opt_default o); try discriminate G. now split. }
  destruct O as (o & Io & <- & K & D). destruct (text_value number k t is l o T M Io K) as [V0 V1]. destruct (last_setting l (dest o)) as [N|(a & b & y & El & N)].
  - rewrite (V0 N), D. split; [intros X; discriminate X|]. intros (a & b & -> & _). destruct (N (VText x)). apply in_app_iff. right. now left.
  - destruct (V1 a b y El N) as [V [z ->]]. rewrite V. split.
    + intros X. injection X as ->. exists a, b. split; [exact El|]. intros [y Y]. now destruct (N y).
    + intros (a' & b' & El' & N'). destruct (V1 a' b' (VText x) El') as [V' _]; [intros y Y; apply N'; now exists y|]. congruence.
Qed.
Lemma authinfo_exact number k t is l typed u p : make_parser k = Ok t -> meaning number t is l ->
  (authinfo typed (set_all (defaults t) l) = Some (u, p) <->
   last_text l "username" u /\ u <> "" /\ (last_text l "password" p /\ p <> "" \/ p = typed /\ forall x, last_text l "password" x -> x = "")).
Proof.
  intros T M. pose proof (text_lookup number k t is l "username" T M ltac:(cbn; tauto)) as U. pose proof (text_lookup number k t is l "password" T M ltac:(cbn; tauto)) as Pw. set (v := set_all (defaults t) l) in *. unfold authinfo.
  assert (R : forall q, (match v !! "password" with Some (VText p) => if String.eqb p "" then typed else p | _ => typed end = q) <-> last_text l "password" q /\ q <> "" \/ q = typed /\ forall x, last_text l "password" x -> x = "").
  { intros q. destruct (v !! "password") as [[]|] eqn:E.
    3:{ assert (Ls : last_text l "password" s) by now apply Pw. assert (Un : forall x, last_text l "password" x -> x = s) by (intros x X; apply Pw in X; congruence). destruct (String.eqb_spec s "") as [->|Ne].
        - split; [intros <-; right; split; [reflexivity|exact Un]|]. intros [[X Y]|[-> _]]; [now rewrite (Un q X) in Y|reflexivity].
        - split; [intros <-; left; now split|]. intros [[X _]|[_ X]]; [symmetry; now apply Un|]. now destruct (Ne (X s Ls)). }
    all: (split; [intros <-; right; split; [reflexivity|]; intros x X; apply Pw in X; discriminate X|]; intros [[X _]|[-> _]]; [apply Pw in X; discriminate X|reflexivity]). }
  destruct (v !! "username") as [[]|] eqn:E; try (split; [intros X; discriminate X|]; intros [X _]; apply U in X; discriminate X).
  destruct (String.eqb_spec s "") as [->|Ne].
  - split; [intros X; discriminate X|]. intros (X & Y & _). apply U in X. congruence.
  - split.
    + intros X. injection X as <- X. split; [now apply U|]. split; [exact Ne|]. now apply R.
    + intros (X & _ & Y). apply U in X. injection X as ->. apply R in Y. now rewrite Y.
Qed.
