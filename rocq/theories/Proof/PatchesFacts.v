(** * Patching a source: lemmas *)
From Coq Require Import String Ascii ZArith List Lia Bool.
From stdpp Require Import gmap strings.
From Verif Require Import Model.Py Model.Path Spec.PathSpec Proof.PyFacts Proof.PathFacts Model.Strip Spec.StripSpec Proof.StripFacts
  Proof.AdditionalFacts Model.Trace Proof.TraceFacts Proof.XmlText Model.Patches Spec.PatchesSpec.
Import ListNotations.
Open Scope string_scope.

(** ** The command line *)
Lemma words_cons a s : unbroken a -> words (a ++ " " ++ s) = (word a ++ words s)%list.
Proof. intros U. unfold words. rewrite words_skip by now apply not_blank. reflexivity. Qed.
Lemma level_unbroken z : unbroken ("-p" ++ str_of_Z z).
Proof.
  apply unbroken_app. split; [split; unfold free_of; cbn; intuition discriminate|]. pose proof (str_of_Z_chars z) as F. rewrite List.Forall_forall in F.
  split; intros I; destruct (F _ I) as [D|D]; discriminate D.
Qed.
Lemma command_line z tgt file : unbroken tgt -> tgt <> "<" -> unbroken file -> StripFacts.absolute file ->
  command_of (words ("patch -p" ++ str_of_Z z ++ " " ++ tgt ++ " < " ++ file)) = Some ("patch" :: ("-p" ++ str_of_Z z) :: word tgt, Some file).
Proof.
  intros U N V A.
  replace ("patch -p" ++ str_of_Z z ++ " " ++ tgt ++ " < " ++ file) with ("patch" ++ " " ++ ("-p" ++ str_of_Z z) ++ " " ++ tgt ++ " " ++ "<" ++ " " ++ file)
    by now rewrite !str_app_assoc.
  rewrite words_cons by (split; unfold free_of; cbn; intuition discriminate).
  rewrite words_cons by apply level_unbroken. rewrite words_cons by assumption.
  rewrite words_cons by (split; unfold free_of; cbn; intuition discriminate).
  assert (file <> "") as F by now destruct A as [r ->].
  rewrite (words_one file V F).
  change (word "patch") with ["patch"]. change (word ("-p" ++ str_of_Z z)) with ["-p" ++ str_of_Z z]. change (word "<") with ["<"].
  cbn [app command_of]. change (String.eqb "patch" "<") with false. change (String.eqb ("-p" ++ str_of_Z z) "<") with false. cbn match.
  destruct tgt as [|a tgt]; [reflexivity|]. cbn [word app command_of]. rewrite (proj2 (String.eqb_neq _ _) N). reflexivity.
Qed.

Lemma join_rel d f : d <> "" -> ~ ends_in_slash d -> relative_path f -> join_path d [f] = d ++ "/" ++ f.
Proof.
  intros N E R. unfold join_path. cbn [fold_left]. unfold join_path2. rewrite (rel_lstrip f R), (proj2 (String.eqb_neq _ _) N). cbn [orb].
  assert (py_endswith d "/" = false) as ->; [|reflexivity]. apply not_true_iff_false. now rewrite endswith_iff.
Qed.

Lemma last_part_basename d f n : relative_path f -> last_part f n <-> n = basename (d ++ "/" ++ f).
Proof.
  intros R. destruct (rel_last f R) as (m & M & F & D).
  assert (basename (d ++ "/" ++ f) = m) as ->.
  { destruct D as [->|(q & Q & ->)]; [now apply basename_under|]. rewrite <- !str_app_assoc. rewrite (str_app_assoc _ "/" m). now apply basename_under. }
  split.
  - intros [G H]. destruct D as [->|(q & Q & ->)], H as [H|(e & H)].
    + now symmetry.
    + exfalso. subst. apply F. rewrite !los_app. apply in_or_app. right. now left.
    + exfalso. subst. apply G. rewrite !los_app. apply in_or_app. right. now left.
    + assert (basename (q ++ "/" ++ m) = m) as K by now apply basename_under. rewrite H, (basename_under e n G) in K. exact K.
  - intros ->. split; [assumption|]. destruct D as [->|(q & Q & ->)]; [now left|]. right. now exists q.
Qed.

Section facts.
  Context {T : Type} (patch : list string -> string -> T -> bool * T) (gunzip bunzip2 : string -> option string).
  Context (src_dir files_dir tmp_dir : string).
  Local Notation do_patch := (do_patch patch src_dir).
  Local Notation uncompress := (uncompress (T := T) gunzip bunzip2 tmp_dir).
  Local Notation apply_patch := (apply_patch patch gunzip bunzip2 src_dir files_dir tmp_dir).
  Local Notation apply_patches := (apply_patches patch gunzip bunzip2 src_dir files_dir tmp_dir).
  Local Notation text_of := (text_of gunzip bunzip2 files_dir).
  Local Notation takes := (takes patch gunzip bunzip2 files_dir).
  Local Notation refuses := (refuses patch gunzip bunzip2 files_dir).
  Local Notation all_taken := (all_taken patch gunzip bunzip2 files_dir).
  Local Notation unpacked_at := (unpacked_at tmp_dir).
  Local Notation apart := (apart files_dir tmp_dir).

  Lemma look f (d : desk T) : StripFacts.absolute f -> lookup_file f d = kept d !! f.
  Proof. intros A. unfold lookup_file. now rewrite resolve_abs. Qed.

  Lemma run_is file z tgt (d : desk T) : unbroken tgt -> tgt <> "<" -> unbroken file -> StripFacts.absolute file ->
    forall text, kept d !! file = Some text ->
    forall ok t, patch (("-p" ++ str_of_Z z) :: word tgt) text (source d) = (ok, t) ->
    run_batch patch ("patch -p" ++ str_of_Z z ++ " " ++ tgt ++ " < " ++ file) d = ([set_source t d], Ok ok).
  Proof.
    intros U N V A text K ok t P. unfold run_batch. rewrite ask_eq. rewrite (command_line z tgt file U N V A).
    change (String.eqb "patch" "patch") with true. cbn match. rewrite (look file _ A). cbn [id]. rewrite K, P. reflexivity.
  Qed.
  Lemma do_patch_is file z tgt (d : desk T) : unbroken tgt -> tgt <> "<" -> unbroken file -> StripFacts.absolute file ->
    forall text, kept d !! file = Some text ->
    forall ok t, patch (("-p" ++ str_of_Z z) :: word tgt) text (source d) = (ok, t) ->
    forall o, default "" o = tgt ->
    final (do_patch true file z o) d = mkDesk (kept d) t (if ok then place d else src_dir) /\
    result (do_patch true file z o) d = if ok then Ok tt else Err EError.
  Proof.
    intros U N V A text K ok t P o O.
    assert (do_patch true file z o d = ([set_place src_dir d; set_source t (set_place src_dir d)] ++ (if ok then [mkDesk (kept d) t (place d)] else []),
      if ok then Ok tt else Err EError)%list) as E.
    { unfold Patches.do_patch. rewrite ask_eq. cbn [negb]. unfold andthen at 1. cbn [change]. rewrite ask_eq. cbn [List.last].
      rewrite (look file _ A). cbn [id set_place kept]. rewrite K. unfold andthen at 1. rewrite O.
      rewrite (run_is file z tgt (set_place src_dir d) U N V A text K ok t P). now destruct ok. }
    unfold final, result. rewrite E. now destruct ok.
  Qed.
  Lemma do_patch_no file z o (d : desk T) : StripFacts.absolute file -> kept d !! file = None ->
    final (do_patch true file z o) d = mkDesk (kept d) (source d) src_dir /\ result (do_patch true file z o) d = Err EError.
  Proof.
    intros A K. unfold final, result, Patches.do_patch. rewrite !ask_eq. cbn [negb]. unfold andthen. cbn [change ask List.last fst snd].
    rewrite (look file _ A). cbn [id set_place kept]. now rewrite K.
  Qed.
  Lemma do_patch_nowhere file z o (d : desk T) : do_patch false file z o d = ([], Err EOS).
  Proof. unfold Patches.do_patch. now rewrite ask_eq. Qed.

  (** ** Unpacking *)
  Definition unzip_of (c : string) : option (string -> option string) :=
    if String.eqb c "gz" then Some gunzip else if String.eqb c "bz2" then Some bunzip2 else None.
  Lemma uncompress_is file c path (d : desk T) : StripFacts.absolute file -> StripFacts.absolute path -> path <> file ->
    join_path tmp_dir [basename file] = path ->
    (exists unzip raw text, unzip_of c = Some unzip /\ kept d !! file = Some raw /\ unzip raw = Some text /\
       final (uncompress file c) d = set_kept (<[path := text]> (kept d)) d /\ result (uncompress file c) d = Ok path) \/
    ((forall unzip raw text, unzip_of c = Some unzip -> kept d !! file = Some raw -> unzip raw <> Some text) /\
       (exists e, result (uncompress file c) d = Err e) /\
       (final (uncompress file c) d = d \/ final (uncompress file c) d = set_kept (<[path := ""]> (kept d)) d)).
  Proof.
    intros A B N J. unfold Patches.uncompress. rewrite J.
    assert (forall f : string -> option string, kept d !! file <> None -> forall p : prog (desk T) (option (string -> option string)),
      (forall s, p s = ([], Ok (Some f))) ->
      let q := (unzip <~ p ;; _ <~ change (fun d => set_kept (<[Strip.resolve (place d) path := ""]> (kept d)) d) ;;
        match unzip with None => raise EName | Some f => d <~ ask id ;;
        match lookup_file file d with
        | Some c => match f c with
                    | Some text => _ <~ change (fun d => set_kept (<[Strip.resolve (place d) path := text]> (kept d)) d) ;; ret path
                    | None => raise EOS
                    end
        | None => raise EOS
        end end)%prog in
      (exists raw text, kept d !! file = Some raw /\ f raw = Some text /\ final q d = set_kept (<[path := text]> (kept d)) d /\ result q d = Ok path) \/
      ((forall raw text, kept d !! file = Some raw -> f raw <> Some text) /\ (exists e, result q d = Err e) /\ final q d = set_kept (<[path := ""]> (kept d)) d)) as G.
    { intros f K p Hp q. destruct (kept d !! file) as [raw|] eqn:L; [|congruence].
      set (d1 := set_kept (<[path := ""]> (kept d)) d).
      assert (q d = match f raw with Some text => ([d1; set_kept (<[path := text]> (kept d1)) d1], Ok path) | None => ([d1], Err EOS) end) as E.
      { unfold q. unfold andthen at 1. rewrite Hp. cbn [List.last]. unfold andthen at 1. cbn [change List.last]. rewrite (resolve_abs (place d) path B). fold d1.
        rewrite ask_eq. rewrite (look file _ A). cbn [id]. assert (kept d1 !! file = Some raw) as ->; [unfold d1; cbn [set_kept kept]; now rewrite lookup_insert_ne|].
        destruct (f raw) as [text|]; [|reflexivity]. unfold andthen. cbn [change ret List.last app]. now rewrite (resolve_abs (place d1) path B). }
      unfold final, result. rewrite E. destruct (f raw) as [text|] eqn:F.
      - left. exists raw, text. split; [reflexivity|]. split; [exact F|]. split; [|reflexivity]. unfold d1, set_kept. cbn [fst List.last kept source place]. now rewrite insert_insert.
      - right. split; [intros raw0 text [= <-]; rewrite F; discriminate|]. split; [now exists EOS|reflexivity]. }
    unfold final, result. rewrite ask_eq. rewrite (look file _ A). unfold unzip_of.
    destruct (String.eqb c "gz") eqn:Eg; [|destruct (String.eqb c "bz2") eqn:Eb].
    - cbn [id]. destruct (kept d !! file) as [raw|] eqn:L.
      + destruct (G gunzip ltac:(discriminate) (ret (Some gunzip)) ltac:(reflexivity)) as [(r & text & R & F & Y & Z)|(R & E & Y)].
        * left. exists gunzip, r, text. auto.
        * right. split; [intros u r text [= <-]; apply R|]. split; [exact E|]. now right.
      + right. split; [discriminate|]. split; [now exists EOS|now left].
    - cbn [id]. destruct (kept d !! file) as [raw|] eqn:L.
      + destruct (G bunzip2 ltac:(discriminate) (ret (Some bunzip2)) ltac:(reflexivity)) as [(r & text & R & F & Y & Z)|(R & E & Y)].
        * left. exists bunzip2, r, text. auto.
        * right. split; [intros u r text [= <-]; apply R|]. split; [exact E|]. now right.
      + right. split; [discriminate|]. split; [now exists EOS|now left].
    - right. split; [discriminate|]. cbn [id]. unfold andthen. cbn [ret change raise List.last app fst snd].
      rewrite (resolve_abs (place d) path B). split; [now exists EName|now right].
  Qed.

  (** ** One patch *)
  Context (Hf : dir_name files_dir) (Ht : dir_name tmp_dir).
  Lemma dir_some x : dir_name x -> x <> "".
  Proof. now intros [[r ->] _]. Qed.
  Lemma under_abs x r : dir_name x -> StripFacts.absolute (x ++ "/" ++ r).
  Proof. intros [[q ->] _]. exists (q ++ "/" ++ r). now rewrite str_app_assoc. Qed.
  Lemma under_unbroken x r : dir_name x -> unbroken r -> unbroken (x ++ "/" ++ r).
  Proof. intros (_ & _ & U) V. apply unbroken_app. split; [assumption|]. apply unbroken_app. split; [split; unfold free_of; cbn; intuition discriminate|assumption]. Qed.

  Lemma given_none o : Patches.given o = None <-> unsaid o.
  Proof. unfold unsaid. destruct o as [[|a s]|]; cbn [Patches.given]; split; intuition congruence. Qed.
  Lemma given_some o c : Patches.given o = Some c <-> o = Some c /\ c <> "".
  Proof. destruct o as [[|a s]|]; cbn [Patches.given]; split; intuition congruence. Qed.
  Lemma args_of p : good_entry p -> exists tgt, default "" (pt_target p) = tgt /\ unbroken tgt /\ tgt <> "<" /\
    forall args, arguments p args <-> args = ("-p" ++ str_of_Z (default 0%Z (pt_level p))) :: word tgt.
  Proof.
    intros [_ G]. exists (default "" (pt_target p)). split; [reflexivity|].
    assert (forall n, level_of p n <-> n = default 0%Z (pt_level p)) as L.
    { intros n. unfold level_of. destruct (pt_level p) as [m|]; cbn; split; intuition congruence. }
    assert (forall t, pt_target p = Some t -> t <> "" -> word t = [t]) as W by now intros [|].
    destruct G as [G|(t & E & U & N & N')].
    - assert (default "" (pt_target p) = "") as -> by now destruct G as [->| ->]. split; [split; intros []|]. split; [discriminate|].
      intros args. split.
      + intros (n & Ln & [[_ ->]|(t & N & E & _)]); [apply L in Ln as ->; reflexivity|]. destruct G as [G|G]; congruence.
      + intros ->. exists (default 0%Z (pt_level p)). split; [now apply L|]. left. split; [exact G|reflexivity].
    - rewrite E. change (default "" (Some t)) with t. split; [assumption|]. split; [assumption|]. rewrite (W t E N). intros args. split.
      + intros (n & Ln & [[[G|G] _]|(t' & _ & E' & ->)]); [congruence|congruence|]. apply L in Ln as ->. congruence.
      + intros ->. exists (default 0%Z (pt_level p)). split; [now apply L|]. right. now exists t.
  Qed.
  Lemma unpacked_iff p f : relative_path (pt_filename p) -> unpacked_at p f <->
    ~ unsaid (pt_compression p) /\ f = tmp_dir ++ "/" ++ basename (files_dir ++ "/" ++ pt_filename p).
  Proof.
    intros R. unfold PatchesSpec.unpacked_at. split.
    - intros (C & n & L & ->). apply (last_part_basename files_dir _ _ R) in L as ->. now split.
    - intros (C & ->). split; [assumption|]. exists (basename (files_dir ++ "/" ++ pt_filename p)). split; [|reflexivity]. now apply (last_part_basename files_dir).
  Qed.

  Lemma apply_one (k : files) p (d : desk T) : good_entry p -> ~ unpacked_at p (files_dir ++ "/" ++ pt_filename p) ->
    kept d !! (files_dir ++ "/" ++ pt_filename p) = k !! (files_dir ++ "/" ++ pt_filename p) ->
    let d' := final (apply_patch true p) d in
    (forall f, ~ unpacked_at p f -> kept d' !! f = kept d !! f) /\
    ((takes k p (source d) (source d') /\ result (apply_patch true p) d = Ok tt /\ place d' = place d) \/
     (refuses k p (source d) (source d') /\ exists e, result (apply_patch true p) d = Err e)).
  Proof.
    intros G Ap K. destruct (args_of p G) as (tgt & Dt & Ut & Nt & Ar). destruct G as [[R U] _].
    set (file := files_dir ++ "/" ++ pt_filename p) in *. set (z := default 0%Z (pt_level p)) in *.
    assert (StripFacts.absolute file) as Af by now apply under_abs. assert (unbroken file) as Uf by now apply under_unbroken.
    unfold Patches.apply_patch. rewrite (join_rel files_dir (pt_filename p) (dir_some _ Hf) (proj1 (proj2 Hf)) R). fold file. fold z.
    destruct (Patches.given (pt_compression p)) as [c|] eqn:C.
    - apply given_some in C as [C Nc].
      assert (~ unsaid (pt_compression p)) as NC by (intros [E|E]; congruence).
      set (path := tmp_dir ++ "/" ++ basename file).
      assert (free_of "/" (basename file) /\ basename file <> "" /\ unbroken (basename file)) as (Fb & Nb & Ub).
      { destruct (rel_last _ R) as (m & M & F & D). assert (basename file = m) as ->.
        { unfold file. destruct D as [->|(q & Q & ->)]; [now apply basename_under|]. rewrite <- !str_app_assoc, (str_app_assoc _ "/" m). now apply basename_under. }
        split; [assumption|]. split; [assumption|]. destruct D as [D|(q & Q & D)]; rewrite D in U; [exact U|]. apply unbroken_app in U as [_ U]. now apply unbroken_app in U as [_ U]. }
      assert (StripFacts.absolute path) as Ap' by now apply under_abs. assert (unbroken path) as Up by now apply under_unbroken.
      assert (path <> file) as Np. { intros E. apply Ap. apply unpacked_iff; [assumption|]. split; [assumption|]. fold file path. now rewrite E. }
      assert (join_path tmp_dir [basename file] = path) as J. { apply join_rel; [now apply dir_some|apply Ht|now apply rel_name]. }
      destruct (uncompress_is file c path d Af Ap' Np J) as [(uz & raw & text & Uz & Kr & X & Fn & Rs)|(No & (e & Rs) & Fn)].
      + assert (text_of k p text) as Tx.
        { rewrite K in Kr. unfold unzip_of in Uz. destruct (String.eqb c "gz") eqn:Eg; [|destruct (String.eqb c "bz2") eqn:Eb; [|discriminate]].
          - apply String.eqb_eq in Eg as ->. injection Uz as <-. now apply gz with raw.
          - apply String.eqb_eq in Eb as ->. injection Uz as <-. now apply bz2 with raw. }
        destruct (patch (("-p" ++ str_of_Z z) :: word tgt) text (source d)) as [ok t] eqn:P.
        set (d1 := set_kept (<[path := text]> (kept d)) d) in *.
        destruct (do_patch_is path z tgt d1 Ut Nt Up Ap' text ltac:(apply lookup_insert) ok t P (pt_target p) Dt) as [Fp Rp].
        assert (final (file <~ uncompress file c ;; do_patch true file z (pt_target p))%prog d = mkDesk (kept d1) t (if ok then place d else src_dir)) as E1.
        { rewrite (andthen_final _ _ _ path Rs), Fn. exact Fp. }
        assert (result (file <~ uncompress file c ;; do_patch true file z (pt_target p))%prog d = if ok then Ok tt else Err EError) as E2.
        { unfold result. rewrite (andthen_ok _ _ _ path Rs). cbn [snd]. rewrite Fn. exact Rp. }
        cbv zeta. rewrite E1, E2. cbn [kept source place]. split.
        * intros f Nf. unfold d1. cbn [set_kept kept]. rewrite lookup_insert_ne; [reflexivity|]. intros <-. apply Nf. apply unpacked_iff; [assumption|]. now split.
        * destruct ok.
          -- left. split; [|split; reflexivity]. exists text, (("-p" ++ str_of_Z z) :: word tgt). split; [assumption|]. split; [now apply Ar|assumption].
          -- right. split; [|now exists EError]. right. exists text, (("-p" ++ str_of_Z z) :: word tgt). split; [assumption|]. split; [now apply Ar|assumption].
      + assert (final (file <~ uncompress file c ;; do_patch true file z (pt_target p))%prog d = final (uncompress file c) d) as E1.
        { unfold final. now rewrite (andthen_err _ _ _ e Rs). }
        assert (result (file <~ uncompress file c ;; do_patch true file z (pt_target p))%prog d = Err e) as E2.
        { unfold result. now rewrite (andthen_err _ _ _ e Rs). }
        cbv zeta. rewrite E1, E2. split.
        * intros f Nf. destruct Fn as [-> | ->]; [reflexivity|]. cbn [set_kept kept]. rewrite lookup_insert_ne; [reflexivity|]. intros <-. apply Nf. apply unpacked_iff; [assumption|]. now split.
        * right. split; [|now exists e]. left. split; [|now destruct Fn as [-> | ->]].
          intros text Tx. rewrite K in No. destruct Tx as [cc Un _|cc text Cc Lc X|cc text Cc Lc X]; [now apply NC| |]; rewrite C in Cc; injection Cc as ->.
          -- now apply (No gunzip cc text eq_refl Lc).
          -- now apply (No bunzip2 cc text eq_refl Lc).
    - apply given_none in C.
      assert (forall q : string -> prog (desk T) unit, andthen (ret file) q d = q file d) as Q. { intros q. unfold andthen. cbn [ret List.last app]. now destruct (q file d). }
      unfold final, result. rewrite Q. fold (final (do_patch true file z (pt_target p)) d). fold (result (do_patch true file z (pt_target p)) d).
      destruct (kept d !! file) as [text|] eqn:L.
      + destruct (patch (("-p" ++ str_of_Z z) :: word tgt) text (source d)) as [ok t] eqn:P.
        destruct (do_patch_is file z tgt d Ut Nt Uf Af text L ok t P (pt_target p) Dt) as [-> ->]. cbn [kept source place]. split; [reflexivity|].
        assert (text_of k p text) as Tx by now apply plain.
        destruct ok.
        * left. split; [|split; reflexivity]. exists text, (("-p" ++ str_of_Z z) :: word tgt). split; [assumption|]. split; [now apply Ar|assumption].
        * right. split; [|now exists EError]. right. exists text, (("-p" ++ str_of_Z z) :: word tgt). split; [assumption|]. split; [now apply Ar|assumption].
      + destruct (do_patch_no file z (pt_target p) d Af L) as [-> ->]. cbn [kept source place]. split; [reflexivity|]. right. split; [|now exists EError].
        left. split; [|reflexivity]. intros text Tx. destruct Tx as [cc _ Lc|cc text _ Lc _|cc text _ Lc _]; fold file in Lc; congruence.
  Qed.

  (** ** All of them *)
  Lemma text_same (k k' : files) p text : k !! (files_dir ++ "/" ++ pt_filename p) = k' !! (files_dir ++ "/" ++ pt_filename p) -> text_of k p text -> text_of k' p text.
  Proof. intros E [c U L|c t U L X|c t U L X]; rewrite E in L; [now apply plain|now apply gz with c|now apply bz2 with c]. Qed.

  Lemma apply_all (k : files) ps0 : apart ps0 -> forall ps (d : desk T), (forall p, In p ps -> In p ps0 /\ good_entry p) ->
    (forall f, (forall p, In p ps0 -> ~ unpacked_at p f) -> kept d !! f = k !! f) ->
    let d' := final (apply_patches true ps) d in
    (forall f, (forall p, In p ps0 -> ~ unpacked_at p f) -> kept d' !! f = k !! f) /\
    ((all_taken k ps (source d) (source d') /\ result (apply_patches true ps) d = Ok tt /\ place d' = place d) \/
     (exists before p after t, ps = (before ++ p :: after)%list /\ all_taken k before (source d) t /\ refuses k p t (source d') /\
        exists e, result (apply_patches true ps) d = Err e)).
  Proof.
    intros Ap. induction ps as [|p ps IH]; intros d I K.
    - cbn. split; [exact K|]. left. split; [constructor|now split].
    - destruct (I p (or_introl eq_refl)) as [Ip Gp].
      destruct (apply_one k p d Gp (Ap p p Ip Ip) (K _ (fun q Iq => Ap q p Iq Ip))) as [K1 D].
      assert (forall f, (forall q, In q ps0 -> ~ unpacked_at q f) -> kept (final (apply_patch true p) d) !! f = k !! f) as K2.
      { intros f Nf. rewrite K1; [now apply K|now apply Nf]. }
      unfold Patches.apply_patches in *. cbn [each]. destruct D as [(Tk & Rs & Pl)|(Rf & e & Rs)].
      + assert (final (_ <~ apply_patch true p ;; each (apply_patch true) ps)%prog d = final (each (apply_patch true) ps) (final (apply_patch true p) d)) as ->.
        { exact (andthen_final _ _ _ tt Rs). }
        assert (result (_ <~ apply_patch true p ;; each (apply_patch true) ps)%prog d = result (each (apply_patch true) ps) (final (apply_patch true p) d)) as ->.
        { unfold result. now rewrite (andthen_ok _ _ _ tt Rs). }
        destruct (IH (final (apply_patch true p) d) (fun q Iq => I q (or_intror Iq)) K2) as [K3 [(A1 & A2 & A3)|(b & q & a & t & -> & B1 & B2 & B3)]].
        * split; [exact K3|]. left. split; [now apply one_more with (source (final (apply_patch true p) d))|]. split; [assumption|congruence].
        * split; [exact K3|]. right. exists (p :: b), q, a, t. split; [reflexivity|]. split; [|now split]. now apply one_more with (source (final (apply_patch true p) d)).
      + assert (final (_ <~ apply_patch true p ;; each (apply_patch true) ps)%prog d = final (apply_patch true p) d) as ->.
        { unfold final. now rewrite (andthen_err _ _ _ e Rs). }
        assert (result (_ <~ apply_patch true p ;; each (apply_patch true) ps)%prog d = Err e) as ->.
        { unfold result. now rewrite (andthen_err _ _ _ e Rs). }
        split; [exact K2|]. right. exists [], p, ps, (source d). split; [reflexivity|]. split; [constructor|]. split; [exact Rf|now exists e].
  Qed.

  (** ** What a patch does is determined *)
  Lemma text_det k p a b : text_of k p a -> text_of k p b -> a = b.
  Proof.
    intros [c U L|c t U L X|c t U L X] [c' U' L'|c' t' U' L' X'|c' t' U' L' X']; try congruence; unfold unsaid in *; try (destruct U; congruence); destruct U'; congruence.
  Qed.
  Lemma args_det p a b : good_entry p -> arguments p a -> arguments p b -> a = b.
  Proof. intros G A B. destruct (args_of p G) as (tgt & _ & _ & _ & E). apply E in A, B. congruence. Qed.
  Lemma takes_det k p t a b : good_entry p -> takes k p t a -> takes k p t b -> a = b.
  Proof.
    intros G (x & u & X & U & P) (y & v & Y & V & Q). rewrite (text_det _ _ _ _ X Y), (args_det _ _ _ G U V) in P. congruence.
  Qed.
  Lemma takes_not k p t a b : good_entry p -> takes k p t a -> refuses k p t b -> False.
  Proof.
    intros G (x & u & X & U & P) [[N _]|(y & v & Y & V & Q)]; [now apply (N x)|]. rewrite (text_det _ _ _ _ X Y), (args_det _ _ _ G U V) in P. congruence.
  Qed.
  Lemma taken_det k ps t : (forall p, In p ps -> good_entry p) -> forall a b, all_taken k ps t a -> all_taken k ps t b -> a = b.
  Proof.
    intros G a b A. revert G b. induction A as [t|p ps t t' t'' Tk A IH]; intros G b B; inversion B; subst; [reflexivity|].
    apply IH; [intros q Iq; apply G; now right|]. erewrite (takes_det _ _ _ t' _ (G p (or_introl eq_refl)) Tk); eassumption.
  Qed.
  Lemma taken_split k before p after t a : all_taken k (before ++ p :: after) t a -> exists u v, all_taken k before t u /\ takes k p u v.
  Proof.
    revert t. induction before as [|q before IH]; intros t A; cbn [app] in A; inversion A; subst.
    - exists t, t'. split; [constructor|assumption].
    - match goal with H : all_taken k (before ++ _) ?w _, Q : takes k q t ?w |- _ => destruct (IH w H) as (u & v & X & Y); exists u, v; split; [now apply one_more with w|assumption] end.
  Qed.
  Lemma apply_iff ps (d : desk T) : apart ps -> (forall p, In p ps -> good_entry p) ->
    (result (apply_patches true ps) d = Ok tt <-> exists t, all_taken (kept d) ps (source d) t).
  Proof.
    intros Ap G. destruct (apply_all (kept d) ps Ap ps d (fun p Ip => conj Ip (G p Ip)) (fun f _ => eq_refl)) as [_ [(A1 & A2 & A3)|(b & p & a & t & E & B1 & B2 & e & B3)]].
    - split; [now exists (source (final (apply_patches true ps) d))|now intros _].
    - rewrite B3. split; [discriminate|]. intros [t' A]. exfalso. rewrite E in A. apply taken_split in A as (u & v & X & Y).
      assert (u = t) as ->. { apply (taken_det (kept d) b (source d)); try assumption. intros q Iq. apply G. rewrite E. apply in_or_app. now left. }
      assert (good_entry p) as Gp. { apply G. rewrite E. apply in_or_app. right. now left. }
      now apply (takes_not _ _ _ _ _ Gp Y B2).
  Qed.

  (** Without a source directory *)
  Lemma nowhere p ps (d : desk T) : exists e, result (apply_patches false (p :: ps)) d = Err e.
  Proof.
    destruct (result (apply_patches false (p :: ps)) d) as [[]|e] eqn:R; [|now exists e]. exfalso.
    unfold Patches.apply_patches in R. cbn [each] in R. apply andthen_result in R as (u & R & _). unfold Patches.apply_patch in R.
    apply andthen_result in R as (f & _ & R). destruct R as [R _]. unfold result in R. rewrite do_patch_nowhere in R. discriminate R.
  Qed.
End facts.
