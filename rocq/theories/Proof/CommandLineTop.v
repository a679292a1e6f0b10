(** * Starting pisi *)
From Coq Require Import String Ascii ZArith List Bool Lia Arith.
From stdpp Require Import gmap strings.
From Verif Require Import Model.Py Model.Ops Model.CommandLine Spec.PathSpec Spec.CommandLineSpec Proof.PyFacts Proof.CommandLineFacts.
Import ListNotations.
Open Scope string_scope.

(** ** The tables *)
Fixpoint distinct_b (t : list opt) : bool :=
  match t with
  | [] => true
  | o :: t => negb (existsb (fun o' => String.eqb (opt_long o') (opt_long o) || same_short (opt_short o') (opt_short o)) t) && distinct_b t
  end.
Definition sound_b (t : list opt) : bool := distinct_b t && forallb (fun o => negb (same_short (opt_short o) (Some "-"%char))) t.
Lemma same_short_refl a c : a = Some c -> same_short a a = true.
Proof. intros ->. cbn. apply Ascii.eqb_refl. Qed.
Lemma distinct_b_ok t : distinct_b t = true ->
  (forall o o', In o t -> In o' t -> opt_long o = opt_long o' -> o = o') /\
  (forall o o' c, In o t -> In o' t -> opt_short o = Some c -> opt_short o' = Some c -> o = o') /\ List.NoDup t.
Proof.
  induction t as [|a t IH]; cbn [distinct_b]; [intros _; split; [intros o o' []|split; [intros o o' c []|constructor]]|].
  rewrite andb_true_iff, negb_true_iff. intros [E D]. destruct (IH D) as (L & Sh & N). clear IH D.
  assert (K : forall o, In o t -> opt_long o <> opt_long a /\ forall c, opt_short o = Some c -> opt_short a <> Some c).
  { intros o I. assert (X : (String.eqb (opt_long o) (opt_long a) || same_short (opt_short o) (opt_short a)) = false).
    { destruct (_ || _) eqn:X; [|reflexivity]. assert (Y : existsb (fun o' => String.eqb (opt_long o') (opt_long a) || same_short (opt_short o') (opt_short a)) t = true) by (apply existsb_exists; now exists o). congruence. }
    apply orb_false_iff in X as [X Y]. split; [now apply String.eqb_neq|]. intros c E1 E2. rewrite E1, E2 in Y. cbn in Y. now rewrite Ascii.eqb_refl in Y. }
  split; [|split].
  - intros o o' [<-|I] [<-|I'] H; auto; [destruct (K o' I') as [X _]; congruence|destruct (K o I) as [X _]; congruence].
  - intros o o' c [<-|I] [<-|I'] H H'; auto; [destruct (K o' I') as [_ X]; now destruct (X c H')|destruct (K o I) as [_ X]; now destruct (X c H)|now apply (Sh o o' c)].
  - constructor; [|exact N]. intros I. now destruct (K a I) as [X _].
Qed.
Lemma sound_b_ok t : sound_b t = true -> sound t.
Proof.
  unfold sound_b. rewrite andb_true_iff, forallb_forall. intros [D M]. destruct (distinct_b_ok t D) as (L & Sh & N). split; [exact L|]. split; [exact Sh|]. split; [|exact N].
  intros o I E. specialize (M o I). rewrite E in M. discriminate M.
Qed.

Lemma table_sound k t : make_parser k = Ok t -> sound t.
Proof. intros E. apply sound_b_ok. destruct k; vm_compute in E; try discriminate E; injection E as <-; vm_compute; reflexivity. Qed.
Lemma table_exists k : (exists t, make_parser k = Ok t) <-> k <> Search /\ k <> ListUpgrades.
Proof.
  split; [intros [t E]; destruct k; try (split; discriminate); vm_compute in E; discriminate E|]. intros [A B]. destruct k; try congruence; eexists; vm_compute; reflexivity.
Qed.
Lemma search_table : make_parser Search = Err EValue. Proof. reflexivity. Qed.
Lemma upgrades_table : make_parser ListUpgrades = Err EName. Proof. reflexivity. Qed.
#[global] Instance command_dec : EqDecision command.
Proof. solve_decision. Defined.

Lemma get_command_iff c k : get_command c = Some k <-> named c k.
Proof.
  split.
  - unfold get_command. destruct (find _ registered) as [e|] eqn:E; [|intros X; discriminate X]. intros X. injection X as <-. apply find_some in E as [I E]. apply orb_true_iff in E. rewrite andb_true_iff, negb_true_iff, !String.eqb_eq, String.eqb_neq in E.
    exists (fst (snd e)), (snd (snd e)). split; [|destruct E as [E|[E1 E2]]; [left; congruence|right; now split]]. clear E c.
    assert (G : forallb (fun e => existsb (fun d => if decide (d = (fst (snd e), snd (snd e), fst e)) then true else false) documented) registered = true).
    { vm_compute. reflexivity. }
    rewrite forallb_forall in G. specialize (G e I). apply existsb_exists in G as (d & Id & G). destruct (decide _) as [->|]; [exact Id|discriminate G].
  - intros (long & short & I & C).
    assert (G : forallb (fun d : string * string * command => let '(l, s, k) := d in (if decide (get_command l = Some k) then true else false) && (String.eqb s "" || if decide (get_command s = Some k) then true else false)) documented = true).
    { vm_compute. reflexivity. }
    rewrite forallb_forall in G. specialize (G _ I). cbn beta iota in G. apply andb_true_iff in G as [G1 G2]. destruct C as [->|[-> N]].
    + destruct (decide _) as [E|]; [exact E|discriminate G1].
    + apply orb_true_iff in G2 as [G2|G2]; [now apply String.eqb_eq in G2|]. destruct (decide (get_command short = Some k)) as [E|]; [exact E|discriminate G2].
Qed.

(** ** Which command *)
Lemma pre_words_cons a rest : pre_words (a :: rest) =
  if String.eqb a "--" then [] else if py_startswith a "-" && negb (String.eqb a "-") then pre_words rest else a :: pre_words rest.
Proof. reflexivity. Qed.
Lemma first_bare_iff argv c : (exists l, pre_words argv = c :: l) <-> first_bare argv c.
Proof.
  split.
  - intros [l E]. revert l E. induction argv as [|a argv IH]; intros l E; [discriminate E|]. rewrite pre_words_cons in E. destruct (String.eqb a "--") eqn:D; [discriminate E|]. apply String.eqb_neq in D.
    destruct (py_startswith a "-" && negb (String.eqb a "-")) eqn:B.
    + destruct (IH l E) as (x & b & -> & Bc & Dc & H). exists (a :: x), b. split; [reflexivity|]. split; [exact Bc|]. split; [exact Dc|]. intros y [<-|I]; [|now apply H]. split; [now apply not_bare_iff|exact D].
    + injection E as -> _. exists [], argv. split; [reflexivity|]. split; [now apply bare_iff|]. split; [exact D|]. intros y [].
  - intros (a & b & -> & B & D & H). induction a as [|x a IH].
    + exists (pre_words b). cbn [app]. rewrite pre_words_cons. apply bare_iff in B. apply String.eqb_neq in D. now rewrite D, B.
    + destruct (H x (or_introl eq_refl)) as [Bx Dx]. apply not_bare_iff in Bx. apply String.eqb_neq in Dx. cbn [app]. rewrite pre_words_cons, Dx, Bx. apply IH. intros y I. apply H. now right.
Qed.

Lemma Forall2_in_l {A B} (R : A -> B -> Prop) la lb : List.Forall2 R la lb -> forall a, In a la -> exists b, R a b.
Proof. intros F. induction F as [|x y la lb H F IH]; intros a []; [subst; now exists y|now apply IH]. Qed.
Section start.
  Variable number : string -> option Z.

  Theorem start_exact argv k v args : start number argv = Runs k v args <->
    exists c t is tail l, first_bare argv c /\ named c k /\ make_parser k = Ok t /\ says number t argv is tail l /\
      v = set_all (defaults t) l /\ args = tl (concat (map word is) ++ tail).
  Proof.
    unfold start. split.
    - destruct (pre_words argv) as [|c ws] eqn:P; [destruct (existsb _ _); [intros X; discriminate X|]; destruct (_ || _); intros X; discriminate X|].
      destruct (get_command c) as [k'|] eqn:G; [|intros X; discriminate X]. destruct (make_parser k') as [t|] eqn:T; [|intros X; discriminate X].
      destruct (parse number t argv (defaults t) []) as [| |v' ws'] eqn:E; try (intros X; discriminate X). intros X. injection X as <- <- <-.
      apply (parse_exact number t (table_sound _ t T)) in E as (is & tail & l & S & -> & ->). exists c, t, is, tail, l. split; [apply first_bare_iff; now exists ws|]. split; [now apply get_command_iff|]. split; [exact T|]. split; [exact S|]. now split.
    - intros (c & t & is & tail & l & F & N & T & S & -> & ->). apply first_bare_iff in F as [ws ->]. rewrite (proj2 (get_command_iff c k) N), T.
      rewrite (proj2 (parse_exact number t (table_sound _ t T) argv (defaults t) (set_all (defaults t) l) (concat (map word is) ++ tail))); [reflexivity|]. exists is, tail, l. split; [exact S|]. now split.
  Qed.

  Theorem start_shown argv c k t : first_bare argv c -> named c k -> make_parser k = Ok t ->
    (start number argv = Exits 0 <-> exists is l rest, meaning number t is l /\ argv = (concat (map spelled is) ++ rest)%list /\ asks t rest).
  Proof.
    intros F N T. unfold start. apply first_bare_iff in F as [ws ->]. rewrite (proj2 (get_command_iff c k) N), T. rewrite <- (parse_shown number t (table_sound _ t T) argv (defaults t)).
    destruct (parse number t argv (defaults t) []); split; intros X; try reflexivity; discriminate X.
  Qed.
  (** Everything else is refused with an exit or an exception: nothing is run *)
  Theorem start_unknown argv c : first_bare argv c -> (forall k, ~ named c k) -> start number argv = Fails EError.
  Proof.
    intros F N. unfold start. apply first_bare_iff in F as [ws ->]. destruct (get_command c) as [k|] eqn:G; [|reflexivity]. apply get_command_iff in G. now destruct (N k).
  Qed.
  Theorem start_broken argv c : first_bare argv c ->
    (named c Search -> start number argv = Fails EValue) /\ (named c ListUpgrades -> start number argv = Fails EName).
  Proof.
    intros F. unfold start. apply first_bare_iff in F as [ws ->]. split; intros N; rewrite (proj2 (get_command_iff c _) N); reflexivity.
  Qed.
  Theorem start_never_broken argv k v args : start number argv = Runs k v args -> k <> Search /\ k <> ListUpgrades.
  Proof. intros E. apply start_exact in E as (c & t & _ & _ & _ & _ & _ & T & _). apply table_exists. now exists t. Qed.

  (** ** Command first, or after options that do not hide it *)
  Lemma open_spelled t i l : sound t -> means number t i l -> open_ i -> forall x, In x (spelled i) -> ~ bare x /\ x <> "--".
  Proof.
    intros St M O x I.
    assert (K : forall n, ~ bare ("--" ++ n)). { intros n. rewrite not_bare_iff. destruct n; reflexivity. }
    assert (K2 : forall c r, c <> "-"%char -> ~ bare ("-" ++ String c r) /\ ("-" ++ String c r) <> "--"). { intros c r D. split; [apply not_bare_iff; reflexivity|]. intros E. injection E as E _. congruence. }
    destruct M as [w B|n o N F C Kd|n y o z F C T|n y o z N F C T|fs l N F|fs l c y o z F A N T|fs l c y o z F A T]; cbn in I, O.
    - destruct O.
    - destruct I as [<-|[]]. split; [apply (K n)|]. intros E. destruct n; [congruence|discriminate E].
    - destruct I as [<-|[]]. split; [apply (K (n ++ "=" ++ y))|]. intros E. destruct n; discriminate E.
    - destruct I as [<-|[<-|[]]]; [|exact O]. split; [apply (K n)|]. intros E. destruct n; [congruence|discriminate E].
    - destruct I as [<-|[]]. destruct (flags_head' t St fs l F N) as (c' & r' & -> & D). now apply K2.
    - destruct I as [<-|[]]. destruct (flags_head t St fs l c y F eq_refl (ex_intro _ o A)) as (c' & r' & E & D). cbn [append] in E. change (String "-" (fs ++ String c y)) with ("-" ++ (fs ++ String c y)). rewrite E. now apply K2.
    - destruct I as [<-|[<-|[]]]; [|exact O]. destruct (flags_head t St fs l c "" F eq_refl (ex_intro _ o A)) as (c' & r' & E & D). change (String "-" (fs ++ String c "")) with ("-" ++ (fs ++ String c "")). rewrite E. now apply K2.
  Qed.
  Lemma Forall2_app_split {A B} (R : A -> B -> Prop) a b ls : List.Forall2 R (a ++ b) ls -> exists la lb, ls = (la ++ lb)%list /\ List.Forall2 R a la /\ List.Forall2 R b lb.
  Proof. intros H. apply List.Forall2_app_inv_l in H as (la & lb & H1 & H2 & ->). now exists la, lb. Qed.

  Theorem start_reads pre c post tail k t l rest : named c k -> make_parser k = Ok t ->
    meaning number t (pre ++ Word c :: post) l -> (forall i, In i pre -> open_ i) -> closing rest tail ->
    start number (concat (map spelled (pre ++ Word c :: post)) ++ rest) = Runs k (set_all (defaults t) l) (concat (map word post) ++ tail).
  Proof.
    intros N T M O C. apply start_exact. exists c, t, (pre ++ Word c :: post)%list, tail, l. split.
    - destruct M as (ls & F & _). apply Forall2_app_split in F as (la & lb & -> & Fa & Fb). inversion Fb as [|? lw ? lp Mw Fp E1 E2]. subst. inversion Mw as [? B| | | | | |]. subst.
      exists (concat (map spelled pre)), (concat (map spelled post) ++ rest)%list. split; [rewrite map_app, concat_app, <- app_assoc; reflexivity|]. split; [exact B|]. split; [intros ->; destruct B as [B|B]; [discriminate B|apply B; now exists "-"]|].
      intros x I. apply in_concat in I as (xs & Ixs & I). apply in_map_iff in Ixs as (i & <- & Ii). destruct (Forall2_in_l _ _ _ Fa i Ii) as (li & Mi). exact (open_spelled t i li (table_sound k t T) Mi (O i Ii) x I).
    - split; [exact N|]. split; [exact T|]. split; [split; [exact M|exists rest; now split]|]. split; [reflexivity|].
      assert (W : concat (map word pre) = []). { clear - O. induction pre as [|i pre IH]; [reflexivity|]. cbn. rewrite IH by (intros j J; apply O; now right). specialize (O i (or_introl eq_refl)). destruct i; cbn in O |- *; try reflexivity. destruct O. }
      rewrite map_app, concat_app, W. reflexivity.
  Qed.
End start.
