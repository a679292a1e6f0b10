(** * Building from a specification on a server: lemmas *)
From Coq Require Import String Ascii ZArith List Lia Bool.
From stdpp Require Import gmap strings.
From Verif Require Import Model.Py Model.Path Model.Index Model.Search Spec.PathSpec Proof.PyFacts Proof.PathFacts Proof.AdditionalFacts
  Model.Trace Proof.TraceFacts Model.Fetch Model.Uri Spec.UriSpec Proof.UriFacts Model.RemoteSpec Spec.RemoteSpecSpec.
Import ListNotations.
Open Scope string_scope.

Lemma join2 d n : d <> "" -> ~ ends_in_slash d -> relative_path n -> join_path2 d n = d ++ "/" ++ n.
Proof.
  intros N E R. unfold join_path2. rewrite (rel_lstrip n R), (proj2 (String.eqb_neq _ _) N). cbn [orb].
  assert (py_endswith d "/" = false) as ->; [|reflexivity]. apply not_true_iff_false. now rewrite endswith_iff.
Qed.
Lemma join2_after d n : relative_path n -> join_path2 (d ++ "/") n = d ++ "/" ++ n.
Proof.
  intros R. unfold join_path2. rewrite (rel_lstrip n R). rewrite (proj2 (endswith_iff (d ++ "/") "/") (ex_intro _ d eq_refl)), orb_true_r. apply str_app_assoc.
Qed.
Lemma under_some d n : d <> "" -> d ++ "/" ++ n <> "".
Proof. now destruct d. Qed.
Lemma under_no_end d n : relative_path n -> ~ ends_in_slash (d ++ "/" ++ n).
Proof.
  intros R E. rewrite <- str_app_assoc in E. apply ends_app in E; [|now apply rel_nonempty]. now apply (rel_no_end n R).
Qed.
Lemma rel_one n : n <> "" -> free_of "/" n -> relative_path n.
Proof. intros; now apply rel_name. Qed.
Lemma rel_join a b : relative_path a -> relative_path b -> relative_path (a ++ "/" ++ b).
Proof. induction 1 as [n N F|n p N F R IH]; intros B; [now apply rel_under|]. rewrite !str_app_assoc. apply rel_under; auto. Qed.
Lemma join2_empty d : d <> "" -> ~ ends_in_slash d -> join_path2 d "" = d ++ "/".
Proof.
  intros N E. unfold join_path2. change (py_lstrip "/" "") with "". rewrite (proj2 (String.eqb_neq _ _) N). cbn [orb].
  assert (py_endswith d "/" = false) as ->; [|now rewrite str_app_nil_r]. apply not_true_iff_false. now rewrite endswith_iff.
Qed.
Lemma dirname_free n : free_of "/" n -> dirname n = "".
Proof. intros F. unfold dirname. now rewrite (proj2 (rfind_none slash n) F). Qed.
Lemma basename_free n : free_of "/" n -> basename n = n.
Proof. intros F. unfold basename. now rewrite (proj2 (rfind_none slash n) F). Qed.

(** The address and the directory of a file below "files" *)
Lemma joined d n : d <> "" -> ~ ends_in_slash d -> relative_path n ->
  exists m, m <> "" /\ free_of "/" m /\ last_name n m /\ join_path d ["files"; dirname n; basename n] = d ++ "/files/" ++ n /\
    os_join (join_path d ["files"; dirname n]) m = d ++ "/files/" ++ n.
Proof.
  intros N E R. destruct (rel_last n R) as (m & M & F & D). exists m. split; [assumption|]. split; [assumption|].
  split; [split; [assumption|]; destruct D as [->|(q & _ & ->)]; [now left|right; now exists q]|].
  assert (relative_path "files") as Rf by (apply rel_one; [discriminate|cbv; intuition discriminate]).
  unfold join_path. cbn [fold_left]. rewrite (join2 d "files" N E Rf).
  pose proof (under_some d "files" N) as N'. pose proof (under_no_end d "files" Rf) as E'.
  assert (forall x, d ++ "/files/" ++ x = (d ++ "/" ++ "files") ++ "/" ++ x) as Hx by (intros x; now rewrite !str_app_assoc). rewrite !Hx.
  destruct D as [->|(q & Q & ->)].
  - rewrite (dirname_free m F), (basename_free m F), (join2_empty _ N' E'). rewrite join2_after by now apply rel_one.
    split; [reflexivity|]. unfold os_join. rewrite (free_start m F), (proj2 (endswith_iff _ "/") (ex_intro _ (d ++ "/" ++ "files") eq_refl)), orb_true_r. apply str_app_assoc.
  - rewrite (dirname_under q m (rel_nonempty q Q) (rel_no_end q Q) F), (basename_under q m F), (join2 _ q N' E' Q).
    pose proof (under_some (d ++ "/" ++ "files") q N') as N2. pose proof (under_no_end (d ++ "/" ++ "files") q Q) as E2.
    rewrite (join2 _ m N2 E2 (rel_one m M F)), (join_plain _ m N2 E2 F). now rewrite !str_app_assoc.
Qed.

Section facts.
  Context (server : string -> option string) (local : string -> bool) (tmp_dir : string).
  Context (specuri dir name : string) (Ha : spec_address specuri dir name).
  Context (Ht : tmp_dir <> "" /\ ~ ends_in_slash tmp_dir).
  Let dest := tmp_dir ++ "/" ++ name.

  Lemma name_rel : relative_path name.
  Proof. destruct Ha as (s & h & q & f & _ & _ & _ & _ & _ & _ & N & F & _). now apply rel_one. Qed.
  Lemma dir_some : dir <> "".
  Proof. destruct Ha as (s & h & q & f & -> & _ & [S _] & _). now destruct s. Qed.
  Lemma dir_no_end : ~ ends_in_slash dir.
  Proof.
    pose proof name_rel as R. destruct Ha as (s & h & q & f & -> & _). intros E.
    replace (s ++ "://" ++ h ++ q ++ "/" ++ name) with ((s ++ "://" ++ h ++ q) ++ "/" ++ name) in E by now rewrite !str_app_assoc. exact (under_no_end _ _ R E).
  Qed.
  Lemma the_dir : dirname specuri = dir.
  Proof. pose proof dir_some. pose proof dir_no_end. destruct Ha as (s & h & q & f & E & -> & _ & _ & _ & _ & _ & _ & _ & Ff & _). now apply dirname_under. Qed.
  Lemma the_name : basename dir = name.
  Proof.
    destruct Ha as (s & h & q & f & -> & _ & _ & _ & _ & _ & _ & F & _).
    replace (s ++ "://" ++ h ++ q ++ "/" ++ name) with ((s ++ "://" ++ h ++ q) ++ "/" ++ name) by now rewrite !str_app_assoc. now apply basename_under.
  Qed.
  Lemma dest_some : dest <> "".
  Proof. apply under_some, Ht. Qed.
  Lemma dest_no_end : ~ ends_in_slash dest.
  Proof. apply under_no_end, name_rel. Qed.
  Lemma the_dest : join_path tmp_dir [basename dir] = dest.
  Proof. rewrite the_name. apply join2; [apply Ht|apply Ht|apply name_rel]. Qed.

  (** What fetching one of the files comes to *)
  Definition fetch_name (n : string) : prog files unit :=
    match server (dir ++ "/" ++ n) with
    | Some c => if String.eqb c "" then raise EFetch else change (fun f : files => <[dest ++ "/" ++ n := c]> f)
    | None => raise EFetch
    end.
  Lemma remote_name n m : relative_path n -> plain_chars n -> last_name n m -> m <> "" ->
    exists u x, parse_uri (dir ++ "/" ++ n) = Ok (u, x) /\ u_uri u = dir ++ "/" ++ n /\ u_filename u = m /\ is_remote_file u = true.
  Proof.
    intros R P L Nm. destruct Ha as (s & h & q & f & Hd & _ & Hs & Nf & Hh & [Hp1 Hp2] & _). rewrite Hd.
    replace ((s ++ "://" ++ h ++ q ++ "/" ++ name) ++ "/" ++ n) with (s ++ "://" ++ h ++ ((q ++ "/" ++ name) ++ "/" ++ n)) by now rewrite !str_app_assoc.
    destruct (remote_address s h ((q ++ "/" ++ name) ++ "/" ++ n) m Hs Hh) as (u & E & U & _ & _ & Fn & Rm & _).
    - split.
      + right. destruct Hp1 as [K|[r K]]; [destruct q; discriminate K|]. rewrite K. exists (r ++ "/" ++ n). now rewrite str_app_assoc.
      + intros c I K. rewrite !los_app in K. apply in_app_or in K as [K|K].
        * apply (Hp2 c I). now rewrite !los_app.
        * apply in_app_or in K as [K|K]; [|now apply (P c I)]. destruct K as [<-|[]]. destruct I as [I|[I|[I|[]]]]; discriminate I.
    - destruct L as [Fm [->|[e ->]]]; (split; [assumption|]); right; [now exists (q ++ "/" ++ name)|]. exists ((q ++ "/" ++ name) ++ "/" ++ e). now rewrite !str_app_assoc.
    - exists u, h. split; [exact E|]. split; [exact U|]. split; [exact Fn|]. now apply Rm.
  Qed.
  Lemma download_is n m to : relative_path n -> plain_chars n -> last_name n m -> m <> "" -> os_join to m = dest ++ "/" ++ n ->
    download server local (dir ++ "/" ++ n) to = fetch_name n.
  Proof.
    intros R P L Nm J. destruct (remote_name n m R P L Nm) as (u & x & E & U & Fn & Rm). unfold download. rewrite E, Rm. unfold fetch_url, fetch_name.
    now rewrite Fn, U, J, (proj2 (String.eqb_neq _ _) Nm).
  Qed.
  Lemma files_rel n : relative_path n -> relative_path ("files/" ++ n).
  Proof. intros R. apply (rel_under "files" n); [discriminate|cbv; intuition discriminate|assumption]. Qed.
  Lemma files_chars n : plain_chars n -> plain_chars ("files/" ++ n).
  Proof. intros P c I K. rewrite los_app in K. apply in_app_or in K as [K|K]; [|now apply (P c I)]. cbn in K, I. intuition congruence. Qed.
  Lemma comar_chars n : plain_chars n -> plain_chars ("comar/" ++ n).
  Proof. intros P c I K. rewrite los_app in K. apply in_app_or in K as [K|K]; [|now apply (P c I)]. cbn in K, I. intuition congruence. Qed.
  Lemma from_files_is n : plain_file n -> fetch_from_files server local dir dest n = fetch_name ("files/" ++ n).
  Proof.
    intros [R P]. unfold fetch_from_files.
    destruct (joined dir n dir_some dir_no_end R) as (m & M & F & L & -> & _). destruct (joined dest n dest_some dest_no_end R) as (m' & M' & F' & L' & _ & J').
    replace (dir ++ "/files/" ++ n) with (dir ++ "/" ++ "files/" ++ n) by reflexivity.
    apply (download_is ("files/" ++ n) m'); [now apply files_rel|now apply files_chars| |assumption|exact J'].
    destruct L' as [_ [->|[e ->]]]; (split; [assumption|]); right; [now exists "files"|]. exists ("files/" ++ e). now rewrite str_app_assoc.
  Qed.
  Lemma script_is n : plain_file n -> free_of "/" n -> download server local (join_path dir ["comar"; n]) (join_path dest ["comar"]) = fetch_name ("comar/" ++ n).
  Proof.
    intros [R P] F. assert (relative_path "comar") as Rc by (apply rel_one; [discriminate|cbv; intuition discriminate]).
    unfold join_path. cbn [fold_left]. rewrite (join2 dir "comar" dir_some dir_no_end Rc), (join2 dest "comar" dest_some dest_no_end Rc).
    rewrite (join2 _ n (under_some dir "comar" dir_some) (under_no_end dir "comar" Rc) R).
    replace ((dir ++ "/" ++ "comar") ++ "/" ++ n) with (dir ++ "/" ++ "comar/" ++ n) by now rewrite !str_app_assoc.
    apply (download_is ("comar/" ++ n) n); [|now apply comar_chars| |now apply rel_nonempty|].
    - apply (rel_under "comar" n); [discriminate|cbv; intuition discriminate|assumption].
    - split; [assumption|]. right. now exists "comar".
    - rewrite (join_plain _ n (under_some dest "comar" dest_some) (under_no_end dest "comar" Rc) F). now rewrite !str_app_assoc.
  Qed.
  Lemma actions_is : fetch_actionsfile server local dir dest = fetch_name "actions.py".
  Proof.
    assert (relative_path "actions.py") as R by (apply rel_one; [discriminate|cbv; intuition discriminate]).
    unfold fetch_actionsfile, join_path. cbn [fold_left]. rewrite (join2 dir "actions.py" dir_some dir_no_end R).
    apply (download_is "actions.py" "actions.py"); [assumption|intros c [<-|[<-|[<-|[]]]]; cbv; intuition discriminate| |discriminate|].
    - split; [cbv; intuition discriminate|now left].
    - apply join_plain; [apply dest_some|apply dest_no_end|cbv; intuition discriminate].
  Qed.

  (** ** All of them *)
  Definition each_name (ns : list string) : prog files unit := each fetch_name ns.
  Lemma each_ext {S A} (f g : A -> prog S unit) l : (forall x, In x l -> f x = g x) -> each f l = each g l.
  Proof.
    induction l as [|x l IH]; intros H; [reflexivity|]. cbn [each]. rewrite (H x (or_introl eq_refl)), IH; [reflexivity|]. intros y I. apply H. now right.
  Qed.
  Lemma each_map {S A B} (f : B -> prog S unit) (g : A -> B) l : each (fun x => f (g x)) l = each f (map g l).
  Proof. induction l as [|x l IH]; [reflexivity|]. cbn [each map]. now rewrite IH. Qed.

  (** Programs alike in every state *)
  Definition same {S A} (p q : prog S A) : Prop := forall s, p s = q s.
  Lemma then_assoc {S A B C} (p : prog S A) (q : A -> prog S B) (r : B -> prog S C) : same (andthen (andthen p q) r) (andthen p (fun a => andthen (q a) r)).
  Proof.
    intros s. unfold andthen. destruct (p s) as [t [a|e]]; [|reflexivity]. destruct (q a (List.last t s)) as [t1 [b|e]]; [|reflexivity].
    rewrite last_app. destruct (r b (List.last t1 (List.last t s))) as [t2 z]. now rewrite app_assoc.
  Qed.
  Lemma then_same {S A B} (p p' : prog S A) (q q' : A -> prog S B) : same p p' -> (forall a, same (q a) (q' a)) -> same (andthen p q) (andthen p' q').
  Proof. intros H K s. unfold andthen. rewrite H. destruct (p' s) as [t [a|e]]; [|reflexivity]. now rewrite K. Qed.
  Lemma each_app {S A} (f : A -> prog S unit) l k : same (each f (l ++ k)) (andthen (each f l) (fun _ => each f k)).
  Proof.
    induction l as [|x l IH]; intros s.
    - cbn [app each]. unfold andthen. cbn [ret List.last app]. now destruct (each f k s).
    - cbn [app each]. rewrite then_assoc. revert s. apply then_same; [now intros s|]. intros _. exact IH.
  Qed.
  Lemma each_flat {S A B} (f : B -> prog S unit) (g : A -> list B) l : same (each (fun x => each f (g x)) l) (each f (flat_map g l)).
  Proof.
    induction l as [|x l IH]; intros s; [reflexivity|]. cbn [each flat_map]. rewrite each_app. revert s. apply then_same; [now intros s|]. intros _. exact IH.
  Qed.

  Definition names_of (s : spec_files) : list string :=
    ("actions.py" :: map (fun n => ("files/" ++ n)%string) (sf_patches s) ++
     flat_map (fun k => map (fun n => ("comar/" ++ n)%string) (sp_scripts k)) (sf_packages s) ++
     flat_map (fun k => map (fun n => ("files/" ++ n)%string) (sp_additional k)) (sf_packages s))%list.
  Lemma names_needed s n : In n (names_of s) <-> needed s n.
  Proof.
    unfold names_of. cbn [In]. rewrite !in_app_iff, in_map_iff, !in_flat_map. split.
    - intros [<-|[(p & <- & I)|[(k & K & I)|(k & K & I)]]]; [apply needed_actions|now apply needed_patch|..];
      apply in_map_iff in I as (x & <- & I); [now apply (needed_script s k)|now apply (needed_additional s k)].
    - intros [|p I|k x K I|k x K I]; [now left|right; left; now exists p|right; right; left|right; right; right]; exists k; (split; [assumption|]); apply in_map_iff; now exists x.
  Qed.
  Lemma fetch_files_is s f : plain_names s ->
    fetch_files server local tmp_dir specuri s f = (fst (each_name (names_of s) f), match snd (each_name (names_of s) f) with Ok _ => Ok dest | Err e => Err e end).
  Proof.
    intros (Pp & Pa & Ps). unfold fetch_files. rewrite the_dir, the_dest, actions_is.
    unfold fetch_patches. rewrite (each_ext _ (fun n => fetch_name ("files/" ++ n)) (sf_patches s)) by (intros n I; apply from_files_is; now apply Pp).
    unfold fetch_comarfiles. rewrite (each_ext _ (fun k => each fetch_name (map (fun n => "comar/" ++ n) (sp_scripts k))) (sf_packages s)).
    2:{ intros k K. rewrite <- (each_map fetch_name (fun n => ("comar/" ++ n)%string)). apply each_ext. intros n I. apply script_is; now apply (Ps k n). }
    unfold fetch_additionalFiles. rewrite (each_ext (fun k => each (fetch_from_files server local dir dest) (sp_additional k)) (fun k => each fetch_name (map (fun n => "files/" ++ n) (sp_additional k))) (sf_packages s)).
    2:{ intros k K. rewrite <- (each_map fetch_name (fun n => ("files/" ++ n)%string)). apply each_ext. intros n I. apply from_files_is. now apply (Pa k). }
    rewrite (each_map fetch_name (fun n => ("files/" ++ n)%string) (sf_patches s)).
    assert (forall (p : prog files unit) (d : string) s, andthen p (fun _ => ret d) s = (fst (p s), match snd (p s) with Ok _ => Ok d | Err e => Err e end)) as G.
    { intros p d s0. unfold andthen. destruct (p s0) as [t [u|e]]; cbn [ret fst snd]; [now rewrite app_nil_r|reflexivity]. }
    rewrite <- G. revert f. fold (@same files string).
    match goal with |- forall f, ?a f = ?b f => change (same a b) end.
    intros f. unfold each_name, names_of. cbn [each]. rewrite then_assoc. revert f. match goal with |- forall f, ?a f = ?b f => change (same a b) end.
    apply then_same; [now intros f|]. intros _ f.
    rewrite (then_same _ _ _ (fun _ => ret dest) (each_app fetch_name _ _) (fun _ _ => eq_refl)), then_assoc. revert f. match goal with |- forall f, ?a f = ?b f => change (same a b) end.
    apply then_same; [now intros f|]. intros _ f.
    rewrite (then_same _ _ _ (fun _ => ret dest) (each_app fetch_name _ _) (fun _ _ => eq_refl)), then_assoc. revert f. match goal with |- forall f, ?a f = ?b f => change (same a b) end.
    apply then_same; [apply each_flat|]. intros _. apply then_same; [apply each_flat|]. intros _ f. reflexivity.
  Qed.

  Lemma dest_inj a b : dest ++ "/" ++ a = dest ++ "/" ++ b -> a = b.
  Proof. intros H. apply (f_equal los) in H. rewrite !los_app in H. apply app_inv_head in H. apply app_inv_head in H. now apply los_inj. Qed.
  Lemma each_name_is ns : forall f,
    ((forall n, In n ns -> exists c, has server (dir ++ "/" ++ n) c) /\ result (each_name ns) f = Ok tt /\
      (forall n, In n ns -> final (each_name ns) f !! (dest ++ "/" ++ n) = server (dir ++ "/" ++ n)) /\
      (forall g, (forall n, In n ns -> g <> dest ++ "/" ++ n) -> final (each_name ns) f !! g = f !! g)) \/
    ((exists n, In n ns /\ forall c, ~ has server (dir ++ "/" ++ n) c) /\ result (each_name ns) f = Err EFetch /\
      (forall g, (forall n, In n ns -> g <> dest ++ "/" ++ n) -> final (each_name ns) f !! g = f !! g)).
  Proof.
    induction ns as [|n ns IH]; intros f.
    - left. split; [intros n []|]. split; [reflexivity|]. split; [intros n []|reflexivity].
    - unfold each_name. cbn [each]. fold (each_name ns).
      assert ((exists c, has server (dir ++ "/" ++ n) c /\ fetch_name n = change (fun f : files => <[dest ++ "/" ++ n := c]> f)) \/
              ((forall c, ~ has server (dir ++ "/" ++ n) c) /\ fetch_name n = raise EFetch)) as [(c & Hc & ->)|(No & ->)].
      { unfold fetch_name, has. destruct (server (dir ++ "/" ++ n)) as [c|] eqn:Es; [|right; split; [intros c [K _]; congruence|reflexivity]].
        destruct (String.eqb c "") eqn:Ec; [right|left].
        - apply String.eqb_eq in Ec as ->. split; [intros c [K N]; congruence|reflexivity].
        - apply String.eqb_neq in Ec. exists c. auto. }
      + set (f1 := <[dest ++ "/" ++ n := c]> f). rewrite (andthen_final (change _) (fun _ => each_name ns) f tt eq_refl).
        assert (result (andthen (change (fun f : files => <[dest ++ "/" ++ n := c]> f)) (fun _ => each_name ns)) f = result (each_name ns) f1) as ->.
        { unfold result. now rewrite (andthen_ok (change _) (fun _ => each_name ns) f tt eq_refl). }
        change (final (change (fun f : files => <[dest ++ "/" ++ n := c]> f)) f) with f1.
        destruct (IH f1) as [(A & B & C & D)|(A & B & D)]; [left|right].
        * split; [intros k [<-|I]; [now exists c|now apply A]|]. split; [exact B|]. split.
          -- intros k [<-|I]; [|now apply C]. destruct (in_dec string_dec n ns) as [I|I]; [now apply C|]. rewrite D.
             ++ unfold f1. rewrite lookup_insert. symmetry. exact (proj1 Hc).
             ++ intros k K E. apply dest_inj in E as ->. contradiction.
          -- intros g G. rewrite D by (intros k K; apply G; now right). unfold f1. rewrite lookup_insert_ne; [reflexivity|]. intros E. apply (G n (or_introl eq_refl)). now symmetry.
        * split; [destruct A as (k & K & A); exists k; split; [now right|exact A]|]. split; [exact B|].
          intros g G. rewrite D by (intros k K; apply G; now right). unfold f1. rewrite lookup_insert_ne; [reflexivity|]. intros E. apply (G n (or_introl eq_refl)). now symmetry.
      + right. split; [exists n; split; [now left|exact No]|]. split; reflexivity.
  Qed.

  Lemma fetched s f : plain_names s ->
    let p := fetch_files server local tmp_dir specuri s in
    ((forall n, needed s n -> exists c, has server (dir ++ "/" ++ n) c) /\ result p f = Ok dest /\
      (forall n, needed s n -> final p f !! (dest ++ "/" ++ n) = server (dir ++ "/" ++ n)) /\
      (forall g, (forall n, needed s n -> g <> dest ++ "/" ++ n) -> final p f !! g = f !! g)) \/
    ((exists n, needed s n /\ forall c, ~ has server (dir ++ "/" ++ n) c) /\ result p f = Err EFetch /\
      (forall g, (forall n, needed s n -> g <> dest ++ "/" ++ n) -> final p f !! g = f !! g)).
  Proof.
    intros P p. unfold p, result, final. rewrite (fetch_files_is s f P). cbn [fst snd]. fold (final (each_name (names_of s)) f). fold (result (each_name (names_of s)) f).
    destruct (each_name_is (names_of s) f) as [(A & -> & C & D)|(A & -> & D)]; [left|right].
    - split; [intros n N; apply A; now apply names_needed|]. split; [reflexivity|]. split; [intros n N; apply C; now apply names_needed|].
      intros g G. apply D. intros n N. apply G. now apply names_needed.
    - split; [destruct A as (n & N & A); exists n; split; [now apply names_needed|exact A]|]. split; [reflexivity|].
      intros g G. apply D. intros n N. apply G. now apply names_needed.
  Qed.
  Lemma the_remote : is_remote_file (URI specuri) = true.
  Proof.
    destruct Ha as (s & h & q & f & Hd & Hs & Sc & Nf & Hh & [Hp1 Hp2] & Nn & Fn & Ne & Ff & Pf). unfold URI.
    destruct (remote_name f f) as (u & x & E & _ & _ & R); [now apply rel_one|exact Pf|split; [exact Ff|now left]|exact Ne|]. rewrite Hs, E. exact R.
  Qed.
  Lemma specdir_is s : specdir server local tmp_dir specuri s = fetch_files server local tmp_dir specuri s.
  Proof. unfold specdir. now rewrite the_remote. Qed.
End facts.
