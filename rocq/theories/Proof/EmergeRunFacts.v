From Coq Require Import String Ascii ZArith List Lia.
From stdpp Require Import gmap strings.
From Verif Require Import Model.Py Model.Path Model.Search Model.Index Model.Trace Model.Fetch Model.Uri Model.ItemByRepo Model.Package Model.ComponentDB Model.Databases Model.InstallDB Model.System Model.Graph Model.Plan.
From Verif Require Import Spec.PathSpec Spec.UriSpec Spec.ItemByRepoSpec Spec.DatabaseSpec Proof.PyFacts Proof.PathFacts Proof.UriFacts Proof.ItemByRepoFacts Proof.ItemByRepoMain Proof.DatabaseFacts Proof.ComponentFacts Proof.TraceFacts.
From Verif Require Import Model.EmergeRun Spec.EmergeRunSpec.
Import ListNotations.
Open Scope string_scope.

Lemma absolute_slash p : absolute_path ("/" ++ p) = Ok true.
Proof. unfold absolute_path. change ("/" ++ p) with ("" ++ "/" ++ p). rewrite splitpath_app. reflexivity. Qed.
Lemma absolute_rel p : relative_path p -> absolute_path p = Ok false.
Proof.
  intros R. unfold absolute_path. rewrite (splitpath_plain p (rel_nonempty p R) (rel_no_end p R)).
  destruct (rel_split p R) as (c & cs & E & _ & F). rewrite E. f_equal. apply String.eqb_neq. now inversion F as [|? ? [? ?] ?].
Qed.
Lemma join_rel d p : d <> "" -> ~ ends_in_slash d -> relative_path p -> os_join d p = d ++ "/" ++ p.
Proof.
  intros D E R. unfold os_join. rewrite (proj2 (String.eqb_neq d "") D).
  assert (py_startswith p "/" = false) as ->.
  { apply not_true_iff_false. rewrite startswith_iff. intros [t K]. pose proof (absolute_rel p R) as A. rewrite K, absolute_slash in A. discriminate A. }
  assert (py_endswith d "/" = false) as ->; [|reflexivity]. apply not_true_iff_false. now rewrite endswith_iff.
Qed.

Lemma ret_then {S A B} (a : A) (q : A -> prog S B) h : andthen (ret a) q h = q a h.
Proof. unfold andthen, ret. cbn [List.last app]. destruct (q a h). reflexivity. Qed.

Section e.
  Context (s : sys) (index_uri : string -> string) (source_uri : string -> string -> string) (set_order : gset string -> list string)
          (builds : history -> string -> res (list string)) (installs : history -> string -> res unit).
  Context (Hw : forall r x, held_by s x r -> exists a, leads_to (index_uri r) (source_uri r x) a).
  Notation from := (from_name s index_uri source_uri).
  Notation heldby := (held_by s).
  Notation stands := (stands_at s index_uri source_uri).
  Notation buildp := (build s index_uri source_uri builds).
  Notation one := (fun x => andthen (buildp x) (fun names => install_pkg_files installs names)).
  Notation alli := (all_installed installs).
  Notation done := (emerged s index_uri source_uri builds installs).
  Notation stuck_ := (stuck s index_uri source_uri builds installs).

  Lemma leads_compute index uri a : leads_to index uri a ->
    exists ul b, parse_uri uri = Ok ul /\ absolute_path (u_path (fst ul)) = Ok b /\
      (if b : bool then u_uri (fst ul) else os_join (dirname index) (u_path (fst ul))) = a.
  Proof.
    intros [sc h p E S H P|p E L|d file R L E F D N].
    - destruct (remote_address sc h ("/" ++ p) (basename ("/" ++ p)) S H P) as (u & Eu & U & _ & Q & _); [now apply last_basename|].
      exists (u, h), true. rewrite E. split; [exact Eu|]. cbn [fst]. rewrite Q. split; [apply absolute_slash|exact U].
    - pose proof (parse_local uri (basename uri) L) as K. exists (mkUri uri "file" uri (basename uri), ""), true.
      split; [apply K; now apply last_basename|]. cbn [fst u_path u_uri]. split; [rewrite E; apply absolute_slash|reflexivity].
    - pose proof (parse_local uri (basename uri) L) as K. exists (mkUri uri "file" uri (basename uri), ""), false.
      split; [apply K; now apply last_basename|]. cbn [fst u_path u_uri]. split; [now apply absolute_rel|].
      rewrite E, (dirname_under d file D N F). now apply join_rel.
  Qed.
  Lemma from_held x r a : heldby x r -> leads_to (index_uri r) (source_uri r x) a -> from x = Ok a.
  Proof.
    intros (pre & post & sp & E & G & M) L. unfold from_name.
    assert (get_item_repo (order_of (y_db s)) (db_src (y_db s)) x RRepos = Ok (sp, RName r)) as ->.
    { apply first_repository. exists pre, r, post. auto. }
    cbn [bind snd]. destruct (leads_compute _ _ _ L) as (ul & b & -> & H & K). cbn [bind]. rewrite H. cbn [bind]. now rewrite K.
  Qed.
  Lemma from_cases x : (exists r a, heldby x r /\ leads_to (index_uri r) (source_uri r x) a /\ from x = Ok a) \/
    ((forall r, ~ heldby x r) /\ from x = Err EError).
  Proof.
    destruct (get_item_repo_err (order_of (y_db s)) (db_src (y_db s)) x RRepos) as [E|[[sp q] E]].
    - right. split; [|unfold from_name; now rewrite E]. intros r (pre & post & sp & E1 & G & M).
      assert (get_item_repo (order_of (y_db s)) (db_src (y_db s)) x RRepos = Ok (sp, RName r)) as K by (apply first_repository; exists pre, r, post; auto).
      rewrite E in K. discriminate K.
    - left. apply first_repository in E as (pre & r & post & E1 & -> & G & M). assert (heldby x r) as H by (exists pre, post, sp; auto). destruct (Hw r x H) as [a L]. exists r, a. split; [exact H|]. split; [exact L|]. exact (from_held x r a H L).
  Qed.
  (** What a name stands for *)
  Definition address_of (x : string) : res string := if py_endswith x ".xml" then Ok x else from x.
  Lemma address_cases x : (exists a, stands x a /\ address_of x = Ok a) \/
    ((forall t, x <> t ++ ".xml") /\ (forall r, ~ heldby x r) /\ address_of x = Err EError).
  Proof.
    unfold address_of. destruct (py_endswith x ".xml") eqn:E.
    - left. apply endswith_iff in E as [t E]. exists x. split; [|reflexivity]. now apply (stands_itself s index_uri source_uri x t).
    - apply not_true_iff_false in E. rewrite endswith_iff in E.
      destruct (from_cases x) as [(r & a & H & L & K)|[H K]].
      + left. exists a. split; [|exact K]. apply (stands_in s index_uri source_uri x r a); [|exact H|exact L]. intros t Q. apply E. now exists t.
      + right. split; [intros t Q; apply E; now exists t|]. auto.
  Qed.
  Lemma stands_fun x a : stands x a -> address_of x = Ok a.
  Proof.
    unfold address_of. intros [y t E|y r b N H L].
    - assert (py_endswith y ".xml" = true) as ->; [|reflexivity]. apply endswith_iff. now exists t.
    - assert (py_endswith y ".xml" = false) as ->; [|exact (from_held _ _ _ H L)]. apply not_true_iff_false. rewrite endswith_iff. intros [t K]. now apply (N t).
  Qed.

  Lemma build_eq x h : buildp x h = match address_of x with
    | Err e => ([], Err e)
    | Ok a => match builds h a with Err e => ([], Err e) | Ok fs => ([(h ++ [Built a])%list], Ok fs) end end.
  Proof.
    unfold build, address_of, andthen, lift, ask, ret, raise, Trace.change. destruct (py_endswith x ".xml"); cbn.
    - destruct (builds h x); reflexivity.
    - destruct (from x) as [a|e]; cbn; [|reflexivity]. destruct (builds h a); reflexivity.
  Qed.
  Lemma install_eq f h : install_single_file installs f h = match installs h f with Err e => ([], Err e) | Ok _ => ([(h ++ [Installed f])%list], Ok tt) end.
  Proof. unfold install_single_file, andthen, lift, ask, ret, raise, Trace.change. cbn. destruct (installs h f); reflexivity. Qed.

  Lemma each_install fs h : let p := each (install_single_file installs) fs in
    (result p h = Ok tt /\ alli h fs (final p h)) \/
    (exists gs f rest e, fs = (gs ++ f :: rest)%list /\ result p h = Err e /\ alli h gs (final p h) /\ installs (final p h) f = Err e).
  Proof.
    revert h. induction fs as [|f fs IH]; intros h; cbn [each].
    { left. split; [reflexivity|constructor]. }
    destruct (installs h f) as [[]|e] eqn:E.
    - assert (install_single_file installs f h = ([(h ++ [Installed f])%list], Ok tt)) as K by (rewrite install_eq, E; reflexivity).
      destruct (IH (h ++ [Installed f])%list) as [[R A]|(gs & g & rest & e & -> & R & A & I)].
      + left. unfold result, final, andthen in *. rewrite K. cbn [List.last]. destruct (each (install_single_file installs) fs (h ++ [Installed f])%list) as [t r] eqn:Et.
        cbn [fst snd] in *. split; [exact R|]. rewrite (last_app [(h ++ [Installed f])%list] t h). cbn [List.last]. econstructor; eassumption.
      + right. exists (f :: gs), g, rest, e. split; [reflexivity|]. unfold result, final, andthen in *. rewrite K. cbn [List.last].
        destruct (each (install_single_file installs) (gs ++ g :: rest)%list (h ++ [Installed f])%list) as [t r] eqn:Et. cbn [fst snd] in *.
        split; [exact R|]. rewrite (last_app [(h ++ [Installed f])%list] t h). cbn [List.last]. split; [econstructor; eassumption|exact I].
    - right. exists [], f, fs, e. split; [reflexivity|]. unfold result, final, andthen. rewrite install_eq, E. cbn. split; [reflexivity|]. split; [constructor|exact E].
  Qed.
  Lemma all_pisi fs : forallb (fun x => py_endswith x ".pisi") fs = true <-> forall f, In f fs -> exists t, f = t ++ ".pisi".
  Proof. rewrite forallb_forall. split; intros H f I; apply H in I; now apply endswith_iff. Qed.
  Lemma not_all_pisi fs : forallb (fun x => py_endswith x ".pisi") fs = false -> exists f, In f fs /\ forall t, f <> t ++ ".pisi".
  Proof.
    induction fs as [|f fs IH]; [discriminate|]. cbn [forallb]. destruct (py_endswith f ".pisi") eqn:E; cbn [andb].
    - intros H. destruct (IH H) as (g & I & N). exists g. split; [now right|exact N].
    - intros _. exists f. split; [now left|]. intros t K. apply not_true_iff_false in E. apply E. apply endswith_iff. now exists t.
  Qed.

  Lemma one_source x h : (exists a fs, stands x a /\ builds h a = Ok fs /\ (forall f, In f fs -> exists t, f = t ++ ".pisi") /\
      result (one x) h = Ok tt /\ alli (h ++ [Built a]) fs (final (one x) h)) \/
    (exists e, result (one x) h = Err e /\ stuck_ h x e (final (one x) h)).
  Proof.
    destruct (address_cases x) as [(a & S & A)|(N1 & N2 & A)].
    2:{ right. exists EError. unfold result, final, andthen. rewrite build_eq, A. split; [reflexivity|]. now apply stuck_unknown. }
    destruct (builds h a) as [fs|e] eqn:B.
    2:{ right. exists e. unfold result, final, andthen. rewrite build_eq, A, B. split; [reflexivity|]. now apply (stuck_build _ _ _ _ _ h x a e). }
    assert (buildp x h = ([(h ++ [Built a])%list], Ok fs)) as K by (rewrite build_eq, A, B; reflexivity).
    destruct (forallb (fun x => py_endswith x ".pisi") fs) eqn:P.
    - assert (install_pkg_files installs fs = each (install_single_file installs) fs) as I by (unfold install_pkg_files; now rewrite P).
      rewrite all_pisi in P.
      destruct (each_install fs (h ++ [Built a])%list) as [[R L]|(gs & f & rest & e & E & R & L & F)].
      + left. exists a, fs. do 3 (split; [assumption|]). unfold result, final, andthen in *. rewrite K. cbn [List.last]. rewrite I.
        destruct (each (install_single_file installs) fs (h ++ [Built a])%list) as [t r]. cbn [fst snd] in *. split; [exact R|].
        rewrite (last_app [(h ++ [Built a])%list] t h). exact L.
      + right. exists e. subst fs. unfold result, final, andthen in *. rewrite K. cbn [List.last]. rewrite I.
        destruct (each (install_single_file installs) (gs ++ f :: rest)%list (h ++ [Built a])%list) as [t r]. cbn [fst snd] in *. split; [exact R|].
        rewrite (last_app [(h ++ [Built a])%list] t h). cbn [List.last]. exact (stuck_install s index_uri source_uri builds installs h x a rest gs f e _ S B P L F).
    - destruct (not_all_pisi fs P) as (f & I & N). right. exists EError. unfold result, final, andthen. rewrite K. unfold install_pkg_files. rewrite P. cbn.
      split; [reflexivity|]. exact (stuck_name s index_uri source_uri builds installs h x a fs f S B I N).
  Qed.

  Lemma each_source xs h : (result (each one xs) h = Ok tt /\ done h xs (final (each one xs) h)) \/
    (exists ys x zs e h1, xs = (ys ++ x :: zs)%list /\ result (each one xs) h = Err e /\ done h ys h1 /\ stuck_ h1 x e (final (each one xs) h)).
  Proof.
    revert h. induction xs as [|x xs IH]; intros h; cbn [each].
    { left. split; [reflexivity|constructor]. }
    destruct (one_source x h) as [(a & fs & S & B & P & R & L)|(e & R & K)].
    - unfold result, final in R, L. destruct (one x h) as [t r] eqn:E. cbn [fst snd] in R, L. subst r.
      assert (forall q : unit -> prog history unit, andthen (one x) q h = (let '(t', r) := q tt (List.last t h) in ((t ++ t')%list, r))) as K by (intros q; unfold andthen in E |- *; rewrite E; reflexivity).
      set (h' := List.last t h) in *.
      destruct (IH h') as [[R D]|(ys & y & zs & e & h1 & -> & R & D & T)].
      + left. unfold result, final in *. rewrite K. destruct (each one xs h') as [t' r] eqn:E'. cbn [fst snd] in *. split; [exact R|].
        rewrite last_app. fold h'. econstructor; eassumption.
      + right. exists (x :: ys), y, zs, e, h1. split; [reflexivity|]. unfold result, final in *. rewrite K.
        destruct (each one (ys ++ y :: zs)%list h') as [t' r] eqn:E'. cbn [fst snd] in *. split; [exact R|]. split; [econstructor; eassumption|].
        rewrite last_app. fold h'. exact T.
    - right. exists [], x, xs, e, h. split; [reflexivity|]. unfold result, final in *. destruct (one x h) as [t r] eqn:E. cbn [fst snd] in *. subst r.
      assert (forall q : unit -> prog history unit, andthen (one x) q h = (t, Err e)) as -> by (intros q; unfold andthen in E |- *; rewrite E; reflexivity).
      cbn [fst snd]. split; [reflexivity|]. split; [constructor|exact K].
  Qed.

  (** Being done is decided by where one starts *)
  Lemma alli_fun h fs h1 h2 : alli h fs h1 -> alli h fs h2 -> h1 = h2.
  Proof. intros A. revert h2. induction A as [|h f fs h' I A IH]; intros h2 B; inversion B; subst; auto. Qed.
  Lemma alli_app h gs f fs h' e : alli h (gs ++ f :: fs) h' -> forall h1, alli h gs h1 -> installs h1 f = Err e -> False.
  Proof.
    revert h. induction gs as [|g gs IH]; intros h A h1 B F.
    - inversion B; subst. inversion A; subst. congruence.
    - inversion A; subst. inversion B; subst. eapply IH; eassumption.
  Qed.
  Lemma stands_same x a b : stands x a -> stands x b -> a = b.
  Proof. intros A B. apply stands_fun in A, B. congruence. Qed.
  Lemma done_stuck h x xs h' e h2 : done h (x :: xs) h' -> stuck_ h x e h2 -> False.
  Proof.
    intros D K. inversion D as [|? ? a fs h1 ? ? S B P A D']; subst. clear D D'. destruct K as [h x N1 N2|h x b e S' B'|h x b gs f S' B' I N|h x b fs' gs f e h1' S' B' P' A' F].
    - destruct S as [y t E|y r a' N HH L]; [now apply (N1 t)|now apply (N2 r)].
    - rewrite (stands_same _ _ _ S S') in B. congruence.
    - rewrite (stands_same _ _ _ S S') in B. rewrite B in B'. injection B' as <-. destruct (P f I) as [t ->]. now apply (N t).
    - rewrite (stands_same _ _ _ S S') in *. rewrite B in B'. injection B' as ->. eapply alli_app; eassumption.
  Qed.
  Lemma done_app h ys x zs h' : done h (ys ++ x :: zs) h' -> forall h1, done h ys h1 -> exists h2, done h1 (x :: zs) h2.
  Proof.
    revert h. induction ys as [|y ys IH]; intros h D h1 E.
    - inversion E; subst. eauto.
    - inversion D as [|? ? a fs hd ? ? S B P A D']; subst. inversion E as [|? ? a' fs' he ? ? S' B' P' A' E']; subst.
      rewrite <- (stands_same _ _ _ S S') in *. rewrite B in B'. injection B' as <-. rewrite <- (alli_fun _ _ _ _ A A') in *. eapply IH; eassumption.
  Qed.
  Lemma done_not_stuck h ys x zs h' h1 e h2 : done h (ys ++ x :: zs) h' -> done h ys h1 -> stuck_ h1 x e h2 -> False.
  Proof. intros D E K. destruct (done_app _ _ _ _ _ D _ E) as [h3 D3]. eapply done_stuck; eassumption. Qed.

  Context (Hr : reachable (y_db s)) (Ho : forall X, List.NoDup (set_order X) /\ forall x, In x (set_order X) <-> x ∈ X).
  Notation run := (emerge s index_uri source_uri set_order builds installs).

  Lemma expanded A : exists X, expand_src_components (order_of (y_db s)) (db_comp (y_db s)) A = Ok X /\ forall x, x ∈ X <-> asked s A x.
  Proof. destruct (expand_src_spec (y_db s) A Hr) as (X & E & H). exists X. split; [exact E|]. intros x. rewrite H. reflexivity. Qed.
  Lemma run_eq ign dry A h : exists X, (forall x, x ∈ X <-> asked s A x) /\ run ign dry A h =
    if Nat.eqb (size X) 0 then ([], Ok tt) else
    if ign then (if dry then ([], Ok tt) else andthen (each one (set_order X)) (fun _ => if str_in "pisi" (set_order X) then raise EUpgradePisi else ret tt) h)
    else ([], Err EAttribute).
  Proof.
    destruct (expanded A) as (X & E & H). exists X. split; [exact H|]. unfold emerge. rewrite E. cbn [lift]. rewrite ret_then.
    destruct (Nat.eqb (size X) 0); [reflexivity|]. destruct ign; [|reflexivity]. rewrite ret_then. destruct dry; [reflexivity|]. cbn [each]. now rewrite ret_then.
  Qed.
  Lemma empty_asked A (X : gset string) : (forall x, x ∈ X <-> asked s A x) -> Nat.eqb (size X) 0 = true -> forall x, ~ asked s A x.
  Proof. intros H Z x K. apply Nat.eqb_eq, size_empty_inv, leibniz_equiv in Z. apply H in K. rewrite Z in K. set_solver. Qed.
  Lemma order_empty X : Nat.eqb (size X) 0 = true -> set_order X = [].
  Proof.
    intros Z. apply Nat.eqb_eq, size_empty_inv, leibniz_equiv in Z. destruct (set_order X) as [|x l] eqn:E; [reflexivity|].
    assert (x ∈ X) as K by (apply Ho; rewrite E; now left). rewrite Z in K. set_solver.
  Qed.
  Lemma tail_cases (p : prog history unit) (b : bool) h : let q := andthen p (fun _ => if b then raise EUpgradePisi else ret tt) in
    final q h = final p h /\ result q h = match result p h with Ok _ => if b then Err EUpgradePisi else Ok tt | Err e => Err e end.
  Proof.
    cbn zeta. unfold final, result, andthen. destruct (p h) as [t [u|e]]; [|split; reflexivity]. destruct b; cbn [raise ret fst snd]; rewrite app_nil_r; split; reflexivity.
  Qed.
  Theorem emerge_runs A h : let p := run true false A in
    exists order, List.NoDup order /\ (forall x, In x order <-> asked s A x) /\
      ((done h order (final p h) /\ ~ asked s A "pisi" /\ result p h = Ok tt) \/
       (done h order (final p h) /\ asked s A "pisi" /\ result p h = Err EUpgradePisi) \/
       (exists ys x zs e h1, order = (ys ++ x :: zs)%list /\ done h ys h1 /\ stuck_ h1 x e (final p h) /\ result p h = Err e)).
  Proof.
    cbn zeta. destruct (run_eq true false A h) as (X & HX & E). destruct (Ho X) as [N I].
    exists (set_order X). split; [exact N|]. split; [intros x; rewrite I; apply HX|].
    destruct (Nat.eqb (size X) 0) eqn:Z.
    { left. unfold final, result. rewrite E, (order_empty X Z). split; [constructor|]. split; [now apply (empty_asked A X)|reflexivity]. }
    destruct (tail_cases (each one (set_order X)) (str_in "pisi" (set_order X)) h) as [T1 T2].
    assert (final (run true false A) h = final (each one (set_order X)) h) as F by (rewrite <- T1; unfold final; now rewrite E).
    assert (result (run true false A) h = match result (each one (set_order X)) h with Ok _ => if str_in "pisi" (set_order X) then Err EUpgradePisi else Ok tt | Err e => Err e end) as R
      by (rewrite <- T2; unfold result; now rewrite E).
    rewrite F, R. destruct (each_source (set_order X) h) as [[K D]|(ys & x & zs & e & h1 & E1 & K & D & T)].
    - rewrite K. destruct (str_in "pisi" (set_order X)) eqn:P.
      + right. left. split; [exact D|]. split; [|reflexivity]. apply HX, I. apply DatabaseFacts.str_in_iff. exact P.
      + left. split; [exact D|]. split; [|reflexivity]. intros Q. apply HX, I, DatabaseFacts.str_in_iff in Q. congruence.
    - rewrite K. right. right. exists ys, x, zs, e, h1. auto.
  Qed.
  Theorem emerge_dry A h ign : fst (run ign true A h) = [] /\ (ign = true -> result (run ign true A) h = Ok tt).
  Proof. destruct (run_eq ign true A h) as (X & _ & E). unfold result. rewrite E. destruct (Nat.eqb (size X) 0), ign; split; try reflexivity; discriminate. Qed.
  Theorem emerge_never A h dry : fst (run false dry A h) = [] /\ (result (run false dry A) h = Ok tt <-> forall x, ~ asked s A x).
  Proof.
    destruct (run_eq false dry A h) as (X & HX & E). unfold result. rewrite E. destruct (Nat.eqb (size X) 0) eqn:Z; cbn [fst snd].
    - split; [reflexivity|]. split; [intros _; now apply (empty_asked A X)|reflexivity].
    - split; [reflexivity|]. split; [discriminate|]. intros H. apply Nat.eqb_neq in Z. exfalso. apply Z.
      assert (X = ∅) as -> by (apply set_eq; intros x; split; [intros K; apply HX in K; now apply H in K|set_solver]). apply size_empty.
  Qed.
End e.
