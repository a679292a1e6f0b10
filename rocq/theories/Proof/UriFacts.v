(** * Addresses and mirrors *)
From Coq Require Import String Ascii ZArith List Bool Lia.
From stdpp Require Import gmap strings.
From Verif Require Import Model.Py Model.Path Model.Search Model.Trace Model.Fetch Model.Uri Spec.PathSpec Spec.FetchSpec Spec.UriSpec Proof.PyFacts Proof.PathFacts Proof.TraceFacts Proof.FetchFacts.
Import ListNotations.
Open Scope string_scope.
Notation los := list_ascii_of_string.

(** ** Cutting *)
Lemma cut_free stop s : (forall c, In c (los s) -> stop c = false) -> cut stop s = (s, "").
Proof. induction s as [|c s IH]; intros H; [reflexivity|]. cbn [cut]. rewrite (H c) by now left. rewrite IH by (intros d I; apply H; now right). reflexivity. Qed.
Lemma cut_at stop s c t : (forall d, In d (los s) -> stop d = false) -> stop c = true -> cut stop (s ++ String c t) = (s, String c t).
Proof.
  intros H K. induction s as [|d s IH]; [change ("" ++ String c t) with (String c t); cbn [cut]; now rewrite K|].
  change (String d s ++ String c t) with (String d (s ++ String c t)). cbn [cut]. rewrite (H d) by now left. rewrite IH by (intros e I; apply H; now right). reflexivity.
Qed.
Lemma cut_parts stop s : s = fst (cut stop s) ++ snd (cut stop s) /\ (forall c, In c (los (fst (cut stop s))) -> stop c = false) /\ (forall c r, snd (cut stop s) = String c r -> stop c = true).
Proof.
  induction s as [|c s (E & F & H)]; [split; [reflexivity|split; [intros c []|discriminate]]|]. cbn [cut]. destruct (stop c) eqn:K.
  - cbn. split; [reflexivity|split; [intros d []|]]. now intros d r [= -> ->].
  - destruct (cut stop s) as [a b]. cbn [fst snd] in *. split; [change (String c a ++ b) with (String c (a ++ b)); now rewrite <- E|]. split; [|exact H]. intros d [<-|I]; [exact K|now apply F].
Qed.
Lemma los_app a b : los (a ++ b) = (los a ++ los b)%list.
Proof. induction a as [|c a IH]; [reflexivity|]. change (String c a ++ b) with (String c (a ++ b)). cbn. now rewrite IH. Qed.
Lemma upto_free c s : free_of c s -> upto c s = s.
Proof. intros F. unfold upto. rewrite cut_free; [reflexivity|]. intros d I. destruct (Ascii.eqb_spec c d); [subst; contradiction|reflexivity]. Qed.
Lemma upto_at c s t : free_of c s -> upto c (s ++ String c t) = s.
Proof. intros F. unfold upto. rewrite cut_at; [reflexivity| |apply Ascii.eqb_refl]. intros d I. destruct (Ascii.eqb_spec c d); [subst; contradiction|reflexivity]. Qed.
Lemma char_in_iff c s : char_in c s = true <-> In c (los s).
Proof. induction s as [|d s IH]; cbn; [split; [discriminate|intros []]|]. rewrite orb_true_iff, IH, Ascii.eqb_eq. tauto. Qed.
Lemma char_in_not c s : char_in c s = false <-> free_of c s.
Proof. unfold free_of. rewrite <- char_in_iff. destruct (char_in c s); split; congruence. Qed.
Lemma last_basename p n : last_name p n <-> basename p = n.
Proof.
  split.
  - intros [F [->|(d & ->)]]; [|now apply basename_under]. unfold basename. rewrite (proj2 (rfind_none slash n) F). reflexivity.
  - intros <-. destruct (cut_parts (Ascii.eqb "/") (str_rev p)) as (E & F & H). apply (f_equal str_rev) in E. rewrite str_rev_involutive, str_rev_app_distr in E.
    set (n := str_rev (fst (cut (Ascii.eqb "/") (str_rev p)))) in *. assert (Fn : free_of "/" n).
    { unfold free_of, n. rewrite los_rev. intros I. apply in_rev in I. apply F in I. discriminate I. }
    destruct (snd (cut (Ascii.eqb "/") (str_rev p))) as [|c r] eqn:Er.
    + change (str_rev "" ++ n) with n in E. rewrite E. unfold basename. rewrite (proj2 (rfind_none slash n) Fn). split; [exact Fn|now left].
    + specialize (H c r eq_refl). apply Ascii.eqb_eq in H as <-. assert (Ep : p = str_rev r ++ "/" ++ n).
      { rewrite E at 1. change (String "/" r) with ("/" ++ r). rewrite str_rev_app_distr. now rewrite str_app_assoc. }
      rewrite Ep. rewrite basename_under by exact Fn. split; [exact Fn|]. right. now exists (str_rev r).
Qed.

(** ** Addresses *)
Lemma scheme_ok s : scheme_text s -> forallb scheme_char (los s) = true /\ (forall d, In d (los s) -> Ascii.eqb ":" d = false).
Proof.
  intros [_ H]. split.
  - apply forallb_forall. intros c I. unfold scheme_char. destruct (H c I) as [->|[->|K]]; rewrite ?orb_true_r; [reflexivity|reflexivity|].
    replace (char_in c "+-.") with true by (symmetry; apply char_in_iff; exact K). now rewrite orb_true_r.
  - intros d I. destruct (Ascii.eqb_spec ":" d) as [<-|]; [|reflexivity]. destruct (H _ I) as [K|[K|[K|[K|[K|[]]]]]]; discriminate K.
Qed.
Lemma lower_http s : s = "http" -> py_lower s = "http".
Proof. now intros ->. Qed.
Lemma split_scheme_remote s rest : scheme_text s -> split_scheme (s ++ "://" ++ rest) = (py_lower s, "//" ++ rest).
Proof.
  intros S. destruct (scheme_ok s S) as [A B]. unfold split_scheme. change (s ++ "://" ++ rest) with (s ++ String ":" ("//" ++ rest)). rewrite cut_at by (exact B || reflexivity).
  rewrite (proj2 (String.eqb_neq _ _) (proj1 S)). destruct (String.eqb_spec s "http") as [->|N]; [reflexivity|]. rewrite A. reflexivity.
Qed.
Lemma split_netloc_remote h p : host_text h -> p = "" \/ (exists r, p = "/" ++ r) -> split_netloc ("//" ++ h ++ p) = (h, p).
Proof.
  intros Hh Hp. unfold split_netloc. replace (py_startswith ("//" ++ h ++ p) "//") with true by (symmetry; apply startswith_iff; now exists (h ++ p)).
  change (py_drop 2 ("//" ++ h ++ p)) with (h ++ p). assert (F : forall c, In c (los h) -> char_in c "/?#" = false).
  { intros c I. apply char_in_not. intros J. assert (K : In c ["/"; "?"; "#"]%char) by (cbn in *; tauto). exact (proj1 Hh c K I). }
  destruct Hp as [->|(r & ->)]; [rewrite str_app_nil_r; now apply cut_free|]. change ("/" ++ r) with (String "/" r). now apply cut_at.
Qed.
Lemma one_bracket_no h : host_text h -> one_bracket h = false.
Proof.
  intros [_ H]. rewrite <- !char_in_not in H. unfold one_bracket. destruct (char_in "[" h), (char_in "]" h); try reflexivity; [discriminate (proj2 H eq_refl)|discriminate (proj1 H eq_refl)].
Qed.
Lemma parse_remote s h p n : scheme_text s -> host_text h -> path_text p -> last_name p n ->
  parse_uri (s ++ "://" ++ h ++ p) = Ok (mkUri (s ++ "://" ++ h ++ p) (py_lower s) p n, h).
Proof.
  intros S H [Hp F] L. unfold parse_uri. rewrite split_scheme_remote by exact S. rewrite split_netloc_remote by assumption. rewrite one_bracket_no by exact H.
  rewrite (upto_free "#" p), (upto_free "?" p) by (apply F; cbn; tauto). rewrite (proj2 (char_in_not ";" p)) by (apply F; cbn; tauto). rewrite andb_false_r.
  now rewrite (proj1 (last_basename p n) L).
Qed.
Lemma split_scheme_local p : local_text p -> split_scheme p = ("file", p).
Proof.
  intros (_ & _ & H). unfold split_scheme. destruct (cut_parts (Ascii.eqb ":") p) as (E & F & K). destruct (cut (Ascii.eqb ":") p) as [pre [|c rest]]; cbn [fst snd] in *; [reflexivity|].
  specialize (K c rest eq_refl). apply Ascii.eqb_eq in K as <-. specialize (H pre rest E). destruct (String.eqb_spec pre "") as [_|_]; [reflexivity|].
  destruct (String.eqb_spec pre "http") as [->|_]; [elim H; cbn; intros [X|[X|[X|[X|[]]]]]; discriminate X|].
  replace (forallb scheme_char (los pre)) with false; [reflexivity|]. symmetry. apply not_true_iff_false. intros A. apply H. intros I. apply (proj1 (forallb_forall _ _) A) in I. discriminate I.
Qed.
Lemma parse_local p n : local_text p -> last_name p n -> parse_uri p = Ok (mkUri p "file" p n, "").
Proof.
  intros H L. unfold parse_uri. rewrite split_scheme_local by exact H. destruct H as (F & N & _). unfold split_netloc.
  destruct (py_startswith p "//") eqn:K; [apply startswith_iff in K; contradiction|]. cbn [one_bracket char_in andb orb]. change (one_bracket "") with false. cbv iota.
  rewrite (upto_free "#" p), (upto_free "?" p) by (apply F; cbn; tauto). change (existsb (String.eqb "file") uses_params) with false. cbv iota beta. cbn [andb].
  now rewrite (proj1 (last_basename p n) L).
Qed.

(** ** The file of mirrors *)
Lemma words_blank a s : blank a -> words_from (a ++ s) "" = words_from s "".
Proof.
  induction a as [|c a IH]; intros H; [reflexivity|]. change (String c a ++ s) with (String c (a ++ s)). cbn [words_from]. rewrite (H c) by now left. change (String.eqb "" "") with true. cbv iota.
  apply IH. intros d I. apply H. now right.
Qed.
Lemma words_word w s cur : (forall c, In c (los w) -> is_space c = false) -> words_from (w ++ s) cur = words_from s (cur ++ w).
Proof.
  revert cur. induction w as [|c w IH]; intros cur H; [now rewrite str_app_nil_r|]. change (String c w ++ s) with (String c (w ++ s)). cbn [words_from]. rewrite (H c) by now left.
  rewrite IH by (intros d I; apply H; now right). f_equal. now rewrite str_app_assoc.
Qed.
Lemma words_gap cur b s : cur <> "" -> blank b -> b <> "" -> words_from (b ++ s) cur = cur :: words_from s "".
Proof.
  intros N B Nb. destruct b as [|c b]; [congruence|]. change (String c b ++ s) with (String c (b ++ s)). cbn [words_from]. rewrite (B c) by now left.
  rewrite (proj2 (String.eqb_neq _ _) N). f_equal. apply words_blank. intros d I. apply B. now right.
Qed.
Lemma words_end cur c : cur <> "" -> blank c -> words_from c cur = [cur].
Proof.
  intros N B. destruct c as [|x c]; [cbn; now rewrite (proj2 (String.eqb_neq _ _) N)|]. rewrite <- (str_app_nil_r (String x c)). rewrite words_gap by (assumption || discriminate). reflexivity.
Qed.
(** Every text is white space, or begins with a word *)
Lemma words_cases s : (blank s /\ py_words s = []) \/
  exists a w r, s = a ++ w ++ r /\ blank a /\ word w /\ (r = "" \/ exists c r', r = String c r' /\ is_space c = true) /\ py_words s = w :: py_words r.
Proof.
  destruct (cut_parts (fun c => negb (is_space c)) s) as (E & F & H). set (a := fst (cut (fun c => negb (is_space c)) s)) in *. set (t := snd (cut (fun c => negb (is_space c)) s)) in *.
  assert (Ba : blank a) by (intros c I; apply F in I; now apply negb_false_iff in I). clearbody a t. subst s. unfold py_words. rewrite words_blank by exact Ba. destruct t as [|x t].
  - left. rewrite str_app_nil_r. split; [exact Ba|reflexivity].
  - right. specialize (H x t eq_refl). apply negb_true_iff in H. destruct (cut_parts is_space (String x t)) as (E2 & F2 & H2).
    set (w := fst (cut is_space (String x t))) in *. set (r := snd (cut is_space (String x t))) in *.
    assert (Nw : w <> ""). { unfold w. cbn [cut]. rewrite H. destruct (cut is_space t). discriminate. }
    exists a, w, r. split; [now rewrite <- E2|]. split; [exact Ba|]. split; [now split|]. split.
    + destruct r as [|c r'] eqn:Er; [now left|right]. exists c, r'. split; [reflexivity|]. now apply (H2 c r').
    + rewrite E2. rewrite words_word by exact F2. change ("" ++ w) with w. clearbody w r. clear -Nw H2. destruct r as [|c r].
      * cbn [words_from]. rewrite (proj2 (String.eqb_neq _ _) Nw). reflexivity.
      * cbn [words_from]. rewrite (H2 c r eq_refl). rewrite (proj2 (String.eqb_neq _ _) Nw). reflexivity.
Qed.
Lemma says_words line name url : says line name url <-> ~ (exists r, line = "#" ++ r) /\ py_words line = [name; url].
Proof.
  split.
  - intros (N & Wn & Wu & a & b & c & Ba & Bb & Nb & Bc & ->). split; [exact N|]. unfold py_words. rewrite words_blank by exact Ba. rewrite words_word by apply Wn. change ("" ++ name) with name.
    rewrite words_gap by (assumption || apply Wn). rewrite words_word by apply Wu. change ("" ++ url) with url. rewrite words_end by (exact Bc || apply Wu). reflexivity.
  - intros [N E]. split; [exact N|]. destruct (words_cases line) as [[_ K]|(a & w & r & El & Ba & Ww & Hr & K)]; [congruence|]. rewrite K in E. injection E as -> E.
    destruct (words_cases r) as [[_ K2]|(b & w2 & r2 & Er & Bb & Ww2 & Hr2 & K2)]; [congruence|]. rewrite K2 in E. injection E as -> E.
    destruct (words_cases r2) as [[B2 _]|(b3 & w3 & r3 & _ & _ & _ & _ & K3)]; [|congruence]. split; [exact Ww|]. split; [exact Ww2|]. exists a, b, r2. split; [exact Ba|]. split; [exact Bb|]. split; [|split; [exact B2|now rewrite El, Er]].
    intros ->. destruct Hr as [->|(c & r' & -> & Hc)]; [cbn in Er; destruct url; [now elim (proj1 Ww2)|discriminate Er]|].
    change ("" ++ url ++ r2) with (url ++ r2) in Er. destruct Ww2 as [Nu Hu]. destruct url as [|x url]; [congruence|]. injection Er as -> _. rewrite (Hu x) in Hc by now left. discriminate.
Qed.
Lemma says_fun line n u n' u' : says line n u -> says line n' u' -> n = n' /\ u = u'.
Proof. rewrite !says_words. intros [_ E] [_ E']. rewrite E in E'. injection E' as -> ->. split; reflexivity. Qed.
Lemma parse_line_says m line n : (exists u, says line n u /\ parse_line m line = add_mirror m n u) \/
  ((forall u, ~ says line n u) /\ parse_line m line !! n = m !! n).
Proof.
  unfold parse_line. destruct (py_startswith line "#") eqn:K.
  { right. split; [|reflexivity]. intros u Hs. apply says_words in Hs as [N _]. apply N. now apply startswith_iff. }
  assert (N : ~ exists r, line = "#" ++ r) by (intros X; apply startswith_iff in X; congruence).
  destruct (String.eqb_spec line (String newline "")) as [->|_].
  { right. split; [|reflexivity]. intros u Hs. apply says_words in Hs as [_ E]. discriminate E. }
  cbn [negb andb]. destruct (py_words line) as [|a [|b [|c l]]] eqn:E; try (right; split; [intros u Hs; apply says_words in Hs as [_ E']; congruence|reflexivity]).
  destruct (decide (a = n)) as [->|Na].
  - left. exists b. split; [now apply says_words|reflexivity].
  - right. split; [intros u Hs; apply says_words in Hs as [_ E']; congruence|]. unfold add_mirror. now rewrite lookup_insert_ne.
Qed.
Lemma listed_snoc n lines urls line : listed n lines urls ->
  (forall u, says line n u -> listed n (lines ++ [line])%list (urls ++ [u])%list) /\ ((forall u, ~ says line n u) -> listed n (lines ++ [line])%list urls).
Proof.
  induction 1 as [|l u ls us Hs H [IH1 IH2]|l ls us Hn H [IH1 IH2]]; cbn [app].
  - split; [intros u Hu; apply listed_line; [exact Hu|constructor]|intros Hu; apply listed_other; [exact Hu|constructor]].
  - split; [intros v Hv; apply listed_line; [exact Hs|now apply IH1]|intros Hv; apply listed_line; [exact Hs|now apply IH2]].
  - split; [intros v Hv; apply listed_other; [exact Hn|now apply IH1]|intros Hv; apply listed_other; [exact Hn|now apply IH2]].
Qed.
Lemma mirrors_listed lines m n : parse_mirrors (Some lines) = Ok m -> listed n lines (mirrors_of m n) /\ (get_mirrors m n = None <-> mirrors_of m n = []).
Proof.
  cbn. intros [= <-]. induction lines as [|line lines [IH1 IH2]] using rev_ind.
  - cbn. unfold mirrors_of, get_mirrors. rewrite lookup_empty. split; [constructor|tauto].
  - rewrite fold_left_app. cbn [fold_left]. set (m := fold_left parse_line lines ∅) in *. destruct (listed_snoc n lines _ line IH1) as [S1 S2].
    unfold mirrors_of, get_mirrors in *. destruct (parse_line_says m line n) as [(u & Hs & ->)|[Hn ->]].
    + unfold add_mirror. rewrite lookup_insert. cbn [default]. split; [now apply S1|]. unfold id. split; [intros X; discriminate X|intros X; now apply app_eq_nil in X as [_ X]].
    + split; [now apply S2|exact IH2].
Qed.
Lemma listed_fun n lines us vs : listed n lines us -> listed n lines vs -> us = vs.
Proof.
  intros H. revert vs. induction H as [|l u ls us Hs H IH|l ls us Hn H IH]; intros vs K; inversion K; subst; try reflexivity.
  - f_equal; [|now apply IH]. edestruct (says_fun l n u n url); eauto.
  - now elim (H2 u).
  - now elim (Hn url).
  - now apply IH.
Qed.
Lemma listed_in n lines us u : listed n lines us -> In u us <-> exists line, In line lines /\ says line n u.
Proof.
  induction 1 as [|l v ls us Hs H IH|l ls us Hn H IH].
  - split; [intros []|intros (x & [] & _)].
  - cbn [In]. rewrite IH. split; [intros [->|(x & I & K)]; [exists l; tauto|exists x; tauto]|]. intros (x & [->|I] & K); [left; now apply (says_fun x n v n u)|right; now exists x].
  - rewrite IH. cbn [In]. split; [intros (x & I & K); exists x; tauto|]. intros (x & [->|I] & K); [now elim (Hn u)|now exists x].
Qed.

(** ** Fetching from mirrors *)
Lemma mirrors_scheme : scheme_text "mirrors".
Proof. split; [discriminate|]. intros c I. left. cbn in I. repeat (destruct I as [<-|I]; [reflexivity|]). destruct I. Qed.
Lemma last_under p path n : last_name path n -> last_name (p ++ "/" ++ path) n.
Proof. intros [F [->|(d & ->)]]; (split; [exact F|right]); [now exists p|]. exists (p ++ "/" ++ d). now rewrite !str_app_assoc. Qed.
Lemma mirror_address name path file : host_text name -> mirror_file path file ->
  let u := URI ("mirrors://" ++ name ++ "/" ++ path) in
  u_uri u = "mirrors://" ++ name ++ "/" ++ path /\ u_filename u = file /\ is_mirror u = true /\ mirror_name u = name /\ mirror_path u = path.
Proof.
  intros Hn (Nf & L & Np & Fp) u. assert (E : u = mkUri ("mirrors://" ++ name ++ "/" ++ path) "mirrors" ("/" ++ path) file).
  { unfold u, URI. assert (P : path_text ("/" ++ path)).
    { split; [right; now exists path|]. intros c I J. apply (Fp c I). destruct J as [<-|J]; [|exact J]. exfalso. cbn in I. destruct I as [X|[X|[X|[]]]]; discriminate X. }
    pose proof (parse_remote "mirrors" name ("/" ++ path) file mirrors_scheme Hn P (last_under "" path file L)) as Q.
    change ("mirrors" ++ "://" ++ name ++ "/" ++ path) with ("mirrors://" ++ name ++ "/" ++ path) in Q. now rewrite Q. }
  rewrite E. cbn [u_uri u_filename]. split; [reflexivity|]. split; [reflexivity|]. split; [unfold is_mirror; apply startswith_iff; now exists (name ++ "/" ++ path)|].
  unfold mirror_name, mirror_path. cbn [u_uri]. change (py_drop (String.length "mirrors://") ("mirrors://" ++ name ++ "/" ++ path)) with (name ++ String "/" path).
  rewrite split_app_sep by (apply Hn; cbn; tauto). split; [reflexivity|]. apply (join_split "/" path).
Qed.
Lemma starts_scheme s t r : (forall d, In d (los s) -> Ascii.eqb ":" d = false) -> s ++ "://" ++ t = "mirrors://" ++ r -> s = "mirrors".
Proof.
  intros F E. assert (F2 : forall d, In d (los "mirrors") -> Ascii.eqb ":" d = false) by (intros d I; cbn in I; repeat (destruct I as [<-|I]; [reflexivity|]); destruct I).
  pose proof (cut_at (Ascii.eqb ":") s ":" ("//" ++ t) F eq_refl) as C1. pose proof (cut_at (Ascii.eqb ":") "mirrors" ":" ("//" ++ r) F2 eq_refl) as C2.
  change (s ++ String ":" ("//" ++ t)) with (s ++ "://" ++ t) in C1. change ("mirrors" ++ String ":" ("//" ++ r)) with ("mirrors://" ++ r) in C2. rewrite E in C1. congruence.
Qed.
Lemma ends_app a b : b <> "" -> ends_in_slash (a ++ b) -> ends_in_slash b.
Proof.
  intros N [t E]. destruct (str_snoc_cases b) as [->|(r & c & ->)]; [congruence|]. rewrite <- str_app_assoc in E. apply (f_equal str_rev) in E. rewrite !str_rev_app_distr in E. injection E as -> _. now exists r.
Qed.
Lemma mirror_parsed url path file address : mirror_url url -> mirror_file path file -> at_mirror url path address ->
  join_path2 url path = address /\ u_uri (URI address) = address /\ u_filename (URI address) = file /\ is_mirror (URI address) = false /\ is_local_file (URI address) = false.
Proof.
  intros (s & h & p & Eu & Ss & Nl & Nm & Nh & Hh & Pp & Fp) (Nf & L & Np & Fpath) A.
  assert (Ep : exists p', address = s ++ "://" ++ h ++ p' /\ path_text p' /\ last_name p' file).
  { assert (Ff : forall q, p ++ "/" = q \/ p = q -> (exists r, q = "/" ++ r) -> path_text (q ++ path)).
    { intros q Hq (r & Er). split; [right; exists (r ++ path); now rewrite Er|]. intros c I. unfold free_of. rewrite los_app, in_app_iff. intros [J|J]; [|exact (Fpath c I J)].
      destruct Hq as [<-|<-]; [|exact (Fp c I J)]. rewrite los_app, in_app_iff in J. destruct J as [J|[<-|[]]]; [exact (Fp c I J)|]. cbn in I. destruct I as [X|[X|[X|[]]]]; discriminate X. }
    destruct A as [[Es ->]|[Ns ->]]; subst url.
    - assert (Hp : ends_in_slash p).
      { replace (s ++ "://" ++ h ++ p) with ((s ++ "://") ++ (h ++ p)) in Es by now rewrite str_app_assoc. apply ends_app in Es; [|destruct h; [congruence|discriminate]].
        destruct p as [|x p]; [|apply (ends_app h); [discriminate|exact Es]]. exfalso. rewrite str_app_nil_r in Es. destruct Es as [t ->]. apply (proj1 Hh "/"%char); [cbn; tauto|]. rewrite los_app, in_app_iff. right. now left. }
      exists (p ++ path). split; [now rewrite !str_app_assoc|]. destruct Pp as [->|Pp]; [exfalso; destruct Hp as [t Et]; now destruct t|]. split; [apply Ff; [now right|exact Pp]|].
      destruct Hp as [t ->]. rewrite str_app_assoc. now apply last_under.
    - exists (p ++ "/" ++ path). split; [now rewrite !str_app_assoc|]. split; [|now apply last_under]. rewrite <- str_app_assoc. apply Ff; [now left|].
      destruct Pp as [->|(r & ->)]; [now exists ""|]. exists (r ++ "/"). now rewrite str_app_assoc. }
  destruct Ep as (p' & Ea & Pp' & L'). assert (Q : URI address = mkUri address (py_lower s) p' file).
  { unfold URI. rewrite Ea, (parse_remote s h p' file) by assumption. reflexivity. }
  split; [|rewrite Q; cbn [u_uri u_filename]; split; [reflexivity|split; [reflexivity|split]]].
  - unfold join_path2. assert (Nu : url <> "") by (rewrite Eu; destruct Ss as [X _]; destruct s; [congruence|discriminate]).
    replace (py_lstrip "/" path) with path.
    2:{ destruct path as [|x path]; [reflexivity|]. symmetry. apply lstrip_stop. apply char_in_not. intros [X|[]]. apply Np. rewrite <- X. now exists path. }
    rewrite (proj2 (String.eqb_neq _ _) Nu). cbn [orb]. destruct (py_endswith url "/") eqn:K.
    + apply endswith_iff in K. destruct A as [[_ ->]|[N _]]; [reflexivity|contradiction].
    + destruct A as [[X _]|[_ ->]]; [|reflexivity]. apply endswith_iff in X. congruence.
  - unfold is_mirror. cbn [u_uri]. apply not_true_iff_false. intros X. apply startswith_iff in X as [r X]. rewrite Ea in X. apply Nm. eapply starts_scheme; [apply (scheme_ok s Ss)|exact X].
  - unfold is_local_file. cbn [u_scheme]. now apply String.eqb_neq.
Qed.

Section mirrored.
  Context (server : string -> option string) (lines : list string) (m : gmap string (list string)) (Em : parse_mirrors (Some lines) = Ok m).
  Context (name path file : string) (Hn : host_text name) (Hf : mirror_file path file) (dir : string).
  Notation u := (URI ("mirrors://" ++ name ++ "/" ++ path)).
  Context (Hu : forall line url, In line lines -> says line name url -> mirror_url url).
  Lemma listed_mirror url : In url (mirrors_of m name) <-> exists line, In line lines /\ says line name url.
  Proof. destruct (mirrors_listed lines m name Em) as [L _]. now apply listed_in. Qed.
  Lemma mirror_at url : exists address, at_mirror url path address.
  Proof.
    destruct (py_endswith url "/") eqn:K; [exists (url ++ path); left; split; [now apply endswith_iff|reflexivity]|]. exists (url ++ "/" ++ path). right. split; [|reflexivity].
    intros X. apply endswith_iff in X. congruence.
  Qed.
  Lemma mirrors_offer f c : (forall line url address c', In line lines -> says line name url -> at_mirror url path address -> server address = Some c' -> c' = c) ->
    offers server URI (mirrors_of m) dir f c u.
  Proof.
    intros Ho. destruct (mirror_address name path file Hn Hf) as (A1 & A2 & A3 & A4 & A5). apply offers_mirrors; [exact A3|]. intros url I. rewrite A4 in I. apply listed_mirror in I as (line & I & Hs).
    rewrite A5. destruct (mirror_at url) as [address At]. destruct (mirror_parsed url path file address (Hu line url I Hs) Hf At) as (B1 & B2 & B3 & B4 & B5).
    rewrite B1, B3, A2. split; [reflexivity|]. apply offers_server; [exact B4|exact B5|]. rewrite B2. intros c' Hc. eapply Ho; eassumption.
  Qed.
  Lemma mirrored_success f0 f c net authinfo dw w fuel :
    (forall line url address c', In line lines -> says line name url -> at_mirror url path address -> server address = Some c' -> c' = c) ->
    (forall b, f0 !! (join_path2 dir file ++ ".part") = Some b -> beginning b c) -> attempts server URI (mirrors_of m) u dir f0 f ->
    result (fetch server net URI (mirrors_of m) authinfo dw w fuel u dir) f = Ok tt ->
    final (fetch server net URI (mirrors_of m) authinfo dw w fuel u dir) f !! join_path2 dir file = Some c.
  Proof.
    intros Ho Hp Ha Hr. destruct (mirror_address name path file Hn Hf) as (A1 & A2 & _).
    destruct (attempts_succeed server URI (mirrors_of m) u dir f0 c (mirrors_offer f0 c Ho)) with (f := f) (net := net) (authinfo := authinfo) (dw := dw) (w := w) (fuel := fuel) as [R _].
    - unfold partial, FetchSpec.destination. rewrite A2. exact Hp.
    - exact Ha.
    - exact Hr.
    - unfold FetchSpec.destination in R. now rewrite A2 in R.
  Qed.
End mirrored.

Section suffices.
  Context (server : string -> option string) (net : string -> files -> transfer) (mirrors : string -> list string) (dw w : string -> bool).
  Notation fetch_ := (fetch server net URI mirrors false dw w).
  Lemma remote_raises fuel u dir : is_mirror u = false -> is_local_file u = false -> raises_only (fetch_ (S fuel) u dir) (fun e => e = EFetch).
  Proof.
    intros M L. assert (G : forall dest base rest sizes, raises_only (grow dest base rest sizes) (fun e => e = EFetch)).
    { intros. apply raises_each. intros n. apply raises_change. }
    cbn [fetch]. destruct (String.eqb _ _); [now apply raises_raise|]. destruct (negb _); [now apply raises_raise|].
    apply raises_then; [apply raises_ask|]. intros f. destruct (_ && _); [now apply raises_raise|]. rewrite M, L. apply raises_then.
    - unfold fetchRemoteFile. cbn [andb]. apply raises_then.
      + unfold test_range_support. apply raises_then; [apply raises_ask|]. intros g. destruct (exists_ _ _); [|apply raises_ret].
        destruct (_ && _); [apply raises_ret|]. apply raises_then; [apply raises_change|]. intros _. apply raises_ret.
      + intros reget. apply raises_then; [apply raises_ask|]. intros g. destruct (server _); [|now apply raises_raise].
        apply raises_then; [destruct reget; [apply raises_ret|apply raises_change]|]. intros _. apply raises_then; [apply G|]. intros _.
        destruct (t_complete _); [apply raises_change|now apply raises_raise].
    - intros _. apply raises_then; [apply raises_ask|]. intros g. destruct (String.eqb _ _); [|apply raises_change].
      apply raises_then; [apply raises_change|]. intros _. now apply raises_raise.
  Qed.
  Lemma result_then {A B} (p : prog files A) (q : A -> prog files B) s a : result p s = Ok a -> result (andthen p q) s = result (q a) (final p s).
  Proof. intros H. unfold result at 1. rewrite (andthen_ok p q s a H). reflexivity. Qed.
  Lemma remote_file_good u part c f : server (u_uri u) = Some c -> c <> "" -> (forall g, t_complete (net (u_uri u) g) = true) ->
    result (fetchRemoteFile server net false u part) f = Ok tt /\ contents (final (fetchRemoteFile server net false u part) f) part <> "".
  Proof.
    intros Sv Nc Co. unfold fetchRemoteFile. cbn [andb].
    assert (T : exists r, result (test_range_support net u part) f = Ok r).
    { unfold test_range_support, result. rewrite ask_eq. destruct (exists_ f part); [|now exists false]. destruct (_ && _); [now exists true|]. now exists false. }
    destruct T as [r T]. rewrite (result_then _ _ f r T), (andthen_final _ _ f r T). set (g := final (test_range_support net u part) f). unfold result, final. rewrite ask_eq, Sv, Co.
    set (base := if r then contents g part else ""). set (rest := py_drop (String.length base) c). set (p1 := if r then ret tt else write part "").
    assert (P1 : result p1 g = Ok tt) by (unfold p1; now destruct r). rewrite (andthen_ok _ _ g tt P1). cbn [fst snd]. rewrite (andthen_ok _ _ (final p1 g) tt) by apply grow_ok. cbn [fst snd write change].
    split; [reflexivity|]. rewrite !last_app. cbn [List.last]. unfold contents at 1. rewrite lookup_insert. cbn [default]. unfold id. unfold rest. destruct base as [|x b]; [|discriminate]. cbn. now destruct c.
  Qed.
  Lemma remote_good fuel u dir c f : is_mirror u = false -> is_local_file u = false -> u_filename u <> "" -> dw dir = true -> w (FetchSpec.destination u dir) = true ->
    server (u_uri u) = Some c -> c <> "" -> (forall g, t_complete (net (u_uri u) g) = true) -> result (fetch_ (S fuel) u dir) f = Ok tt.
  Proof.
    intros M L Nf D W Sv Nc Co. cbn [fetch]. rewrite (proj2 (String.eqb_neq _ _) Nf), D. cbn [negb]. unfold result. rewrite ask_eq. unfold FetchSpec.destination in W. rewrite W. cbn [negb]. rewrite andb_false_r, M, L.
    set (part := join_path2 dir (u_filename u) ++ ".part"). destruct (remote_file_good u part c f Sv Nc Co) as [R N]. rewrite (andthen_ok _ _ f tt R). cbn [snd]. rewrite ask_eq.
    rewrite (proj2 (String.eqb_neq _ _) N). reflexivity.
  Qed.
  Lemma try_good (g : string -> prog files unit) archive l m : (forall x, In x l -> raises_only (g (join_path2 x archive)) (fun e => e = EFetch)) ->
    In m l -> (forall f, result (g (join_path2 m archive)) f = Ok tt) -> forall f, result (try_mirrors g archive l) f = Ok tt.
  Proof.
    intros H I G. induction l as [|x l IH]; [destruct I|]. intros f. cbn [try_mirrors]. unfold result, try_except. destruct (g (join_path2 x archive) f) as [t [[]|e]] eqn:E; [reflexivity|].
    assert (K : e = EFetch) by (apply (H x (or_introl eq_refl) f); unfold result; now rewrite E). rewrite K. cbn [is_fetch_error].
    destruct I as [->|I]; [specialize (G f); unfold result in G; rewrite E in G; discriminate G|].
    specialize (IH (fun y Iy => H y (or_intror Iy)) I (List.last t f)). unfold result in IH. destruct (try_mirrors g archive l (List.last t f)) as [t' r]. exact IH.
  Qed.
End suffices.
Lemma one_mirror server lines m name path file dir net dw w fuel f line url address c :
  parse_mirrors (Some lines) = Ok m -> host_text name -> mirror_file path file -> (forall line url, In line lines -> says line name url -> mirror_url url) ->
  In line lines -> says line name url -> at_mirror url path address -> server address = Some c -> c <> "" -> (forall g, t_complete (net address g) = true) ->
  dw dir = true -> w (join_path2 dir file) = true ->
  result (fetch server net URI (mirrors_of m) false dw w (S (S fuel)) (URI ("mirrors://" ++ name ++ "/" ++ path)) dir) f = Ok tt.
Proof.
  intros Em Hn Hf Hu I Hs At Sv Nc Co D W. destruct (mirror_address name path file Hn Hf) as (A1 & A2 & A3 & A4 & A5). set (u := URI ("mirrors://" ++ name ++ "/" ++ path)) in *.
  remember (S fuel) as k eqn:Ek. cbn [fetch]. rewrite A2, (proj2 (String.eqb_neq _ _) (proj1 Hf)), D. cbn [negb]. unfold result. rewrite ask_eq, W. cbn [negb]. rewrite andb_false_r, A3, A4, A5.
  assert (Iu : In url (mirrors_of m name)) by (apply (listed_mirror lines m Em); now exists line). destruct (mirrors_of m name) as [|x l] eqn:El; [destruct Iu|]. rewrite <- El in *.
  apply (try_good (fun url => fetch server net URI (mirrors_of m) false dw w k (URI url) dir) path (mirrors_of m name) url).
  - intros y Iy. apply (listed_mirror lines m Em) in Iy as (ly & Il & Hy). destruct (mirror_at path y) as [ay Ay]. destruct (mirror_parsed y path file ay (Hu _ _ Il Hy) Hf Ay) as (B1 & B2 & B3 & B4 & B5).
    rewrite B1, Ek. now apply remote_raises.
  - exact Iu.
  - intros g. destruct (mirror_parsed url path file address (Hu _ _ I Hs) Hf At) as (B1 & B2 & B3 & B4 & B5). rewrite B1, Ek.
    apply (remote_good server net (mirrors_of m) dw w fuel (URI address) dir c g B4 B5); rewrite ?B2, ?B3; try assumption; [apply Hf|]. unfold FetchSpec.destination. now rewrite B3.
Qed.
Lemma no_mirrors server lines m name path file dir net au dw w fuel f : parse_mirrors (Some lines) = Ok m -> host_text name -> mirror_file path file ->
  (forall line url, In line lines -> ~ says line name url) -> dw dir = true -> w (join_path2 dir file) = true ->
  result (fetch server net URI (mirrors_of m) au dw w (S fuel) (URI ("mirrors://" ++ name ++ "/" ++ path)) dir) f = Err EName.
Proof.
  intros Em Hn Hf Hu D W. destruct (mirror_address name path file Hn Hf) as (A1 & A2 & A3 & A4 & A5). set (u := URI ("mirrors://" ++ name ++ "/" ++ path)) in *.
  cbn [fetch]. rewrite A2, (proj2 (String.eqb_neq _ _) (proj1 Hf)), D. cbn [negb]. unfold result. rewrite ask_eq, W. cbn [negb]. rewrite andb_false_r, A3, A4.
  destruct (mirrors_of m name) as [|x l] eqn:El; [reflexivity|]. exfalso. assert (I : In x (mirrors_of m name)) by (rewrite El; now left). apply (listed_mirror lines m Em) in I as (ln & I & Hs). exact (Hu ln x I Hs).
Qed.

(** ** For Prop/UriProps.v *)
Lemma remote_address s h p n : scheme_text s -> host_text h -> path_text p -> last_name p n ->
  exists u, parse_uri (s ++ "://" ++ h ++ p) = Ok (u, h) /\
    u_uri u = s ++ "://" ++ h ++ p /\ u_scheme u = py_lower s /\ u_path u = p /\ u_filename u = n /\
    (is_remote_file u = true <-> py_lower s <> "file") /\ (is_mirror u = true <-> s = "mirrors").
Proof.
  intros S H P L. eexists. split; [exact (parse_remote s h p n S H P L)|]. do 4 (split; [reflexivity|]). split.
  - unfold is_remote_file, is_local_file. cbn [u_scheme]. rewrite negb_true_iff. apply String.eqb_neq.
  - unfold is_mirror. cbn [u_uri]. rewrite startswith_iff. split.
    + intros [r E]. eapply starts_scheme; [apply scheme_ok; exact S|exact E].
    + intros ->. now exists (h ++ p).
Qed.
Lemma local_address p n : local_text p -> last_name p n ->
  exists u, parse_uri p = Ok (u, "") /\ is_local_file u = true /\ u_path u = p /\ u_filename u = n /\ is_mirror u = false.
Proof.
  intros H L. eexists. split; [exact (parse_local p n H L)|]. do 3 (split; [reflexivity|]). unfold is_mirror. cbn [u_uri]. apply not_true_iff_false. rewrite startswith_iff. intros [r E].
  destruct H as (_ & _ & H). apply (H "mirrors" ("//" ++ r) E). cbn. intros J. repeat (destruct J as [X|J]; [discriminate X|]). destruct J.
Qed.
Lemma mirrors_exact lines m name urls : parse_mirrors (Some lines) = Ok m ->
  (get_mirrors m name = Some urls <-> listed name lines urls /\ urls <> []) /\ (get_mirrors m name = None <-> listed name lines []).
Proof.
  intros E. destruct (mirrors_listed lines m name E) as [L K]. unfold mirrors_of in *. destruct (get_mirrors m name) as [us|] eqn:G; cbn [default] in *; unfold id in *.
  - split; split.
    + intros [= <-]. split; [exact L|]. intros X. apply K in X. discriminate X.
    + intros [L2 _]. now rewrite (listed_fun _ _ _ _ L L2).
    + discriminate.
    + intros L2. apply K. exact (listed_fun _ _ _ _ L L2).
  - split; split.
    + discriminate.
    + intros [L2 N]. elim N. exact (listed_fun _ _ _ _ L2 L).
    + intros _. exact L.
    + reflexivity.
Qed.
Lemma not_scheme_char c pre : scheme_char c = false -> In c (los pre) -> forallb scheme_char (los pre) = false.
Proof. intros K I. apply not_true_iff_false. intros A. apply (proj1 (forallb_forall _ _) A) in I. congruence. Qed.
Lemma cut_prefix stop a c b : stop c = false -> (exists r, fst (cut stop (a ++ String c b)) = a ++ String c r) \/ exists x a', snd (cut stop (a ++ String c b)) = String x (a' ++ String c b) /\ a = fst (cut stop (a ++ String c b)) ++ String x a' /\ stop x = true.
Proof.
  intros K. induction a as [|d a IH].
  - left. change ("" ++ String c b) with (String c b). cbn [cut]. rewrite K. destruct (cut stop b) as [r ?]. now exists r.
  - change (String d a ++ String c b) with (String d (a ++ String c b)). cbn [cut]. destruct (stop d) eqn:Kd.
    + right. exists d, a. split; [reflexivity|]. now split.
    + destruct (cut stop (a ++ String c b)) as [pre post]. cbn [fst snd] in *. destruct IH as [[r ->]|(x & a' & -> & -> & Kx)]; [left; now exists r|right; now exists x, a'].
Qed.
Lemma local_cut a b c : local_text a -> c = "#"%char \/ c = "?"%char -> exists u, parse_uri (a ++ String c b) = Ok (u, "") /\ is_local_file u = true /\ u_path u = a.
Proof.
  intros (F & N & H) Hc. assert (Fa : forall d, d = "#"%char \/ d = "?"%char -> free_of d a) by (intros d [->| ->]; apply F; cbn; tauto).
  assert (Sc : scheme_char c = false) by (destruct Hc as [->| ->]; reflexivity). assert (Cc : Ascii.eqb ":" c = false) by (destruct Hc as [->| ->]; reflexivity).
  assert (S : split_scheme (a ++ String c b) = ("file", a ++ String c b)).
  { unfold split_scheme. destruct (cut_prefix (Ascii.eqb ":") a c b Cc) as [[r E]|(x & a' & E1 & E2 & E3)]; destruct (cut (Ascii.eqb ":") (a ++ String c b)) as [pre post]; cbn [fst snd] in *.
    - destruct post as [|y rest]; [reflexivity|]. assert (I : In c (los pre)) by (rewrite E, los_app, in_app_iff; right; now left). destruct (String.eqb pre ""); [reflexivity|].
      destruct (String.eqb_spec pre "http") as [->|_]; [exfalso; cbn in I; destruct Hc as [->| ->]; repeat (destruct I as [X|I]; [discriminate X|]); destruct I|]. now rewrite (not_scheme_char c pre Sc I).
    - subst post. apply Ascii.eqb_eq in E3 as <-. pose proof (H pre a' E2) as Hs. destruct (String.eqb pre ""); [reflexivity|].
      destruct (String.eqb_spec pre "http") as [->|_]; [elim Hs; cbn; intros J; repeat (destruct J as [X|J]; [discriminate X|]); destruct J|].
      replace (forallb scheme_char (los pre)) with false; [reflexivity|]. symmetry. apply not_true_iff_false. intros A. apply Hs. intros I. apply (proj1 (forallb_forall _ _) A) in I. discriminate I. }
  assert (E : upto "?" (upto "#" (a ++ String c b)) = a).
  { destruct Hc as [->| ->]; [rewrite upto_at by (apply Fa; tauto); apply upto_free, Fa; tauto|].
    unfold upto at 2. destruct (cut_prefix (Ascii.eqb "#") a "?" b eq_refl) as [[r E]|(x & a' & _ & E2 & E3)]; [|exfalso; apply Ascii.eqb_eq in E3 as <-; apply (Fa "#"%char (or_introl eq_refl)); rewrite E2, los_app, in_app_iff; right; now left].
    rewrite E. apply upto_at. apply Fa. tauto. }
  unfold parse_uri. rewrite S. assert (Nl : split_netloc (a ++ String c b) = ("", a ++ String c b)).
  { unfold split_netloc. destruct (py_startswith (a ++ String c b) "//") eqn:K; [|reflexivity]. exfalso. apply startswith_iff in K as [r K].
    destruct a as [|x [|y a]]; [cbn in K; injection K as K _; destruct Hc; subst; discriminate|cbn in K; injection K as _ K _; destruct Hc; subst; discriminate|].
    injection K as -> -> K. apply N. now exists a. }
  rewrite Nl. change (one_bracket "") with false. cbv iota. rewrite E. change (existsb (String.eqb "file") uses_params) with false. cbn [andb]. eexists. split; [reflexivity|]. split; reflexivity.
Qed.
Lemma local_colon s rest : scheme_text s -> py_lower s <> "file" -> rest <> "" -> (forall c, In c (los rest) -> is_letter c = true) ->
  exists u, parse_uri (s ++ ":" ++ rest) = Ok (u, "") /\ is_remote_file u = true /\ u_path u = rest.
Proof.
  intros S Nf Nr L. destruct (scheme_ok s S) as [A B]. assert (Fr : forall c, is_letter c = false -> free_of c rest) by (intros c K I; rewrite (L c I) in K; discriminate K).
  assert (E : split_scheme (s ++ ":" ++ rest) = (py_lower s, rest)).
  { unfold split_scheme. change (s ++ ":" ++ rest) with (s ++ String ":" rest). rewrite cut_at by (exact B || reflexivity). rewrite (proj2 (String.eqb_neq _ _) (proj1 S)).
    destruct (String.eqb_spec s "http") as [->|N]; [reflexivity|]. rewrite A. replace (existsb _ (los rest)) with true; [now rewrite orb_true_r|]. symmetry. destruct rest as [|c r]; [congruence|].
    cbn [list_ascii_of_string existsb]. specialize (L c (or_introl eq_refl)). replace (is_digit c) with false; [reflexivity|]. symmetry. clear -L. destruct c as [[][][][][][][][]]; vm_compute in *; congruence. }
  unfold parse_uri. rewrite E. unfold split_netloc. destruct (py_startswith rest "//") eqn:K; [exfalso; apply startswith_iff in K as [r ->]; apply (Fr "/"%char eq_refl); now left|].
  change (one_bracket "") with false. cbv iota. rewrite (upto_free "#" rest), (upto_free "?" rest) by now apply Fr. rewrite (proj2 (char_in_not ";" rest)) by now apply Fr. rewrite andb_false_r.
  eexists. split; [reflexivity|]. split; [|reflexivity]. unfold is_remote_file, is_local_file. cbn [u_scheme]. now rewrite (proj2 (String.eqb_neq _ _) Nf).
Qed.
Lemma remark_ignored m name url remark : word name -> word url -> word remark -> parse_line m (name ++ " " ++ url ++ " " ++ remark) = m.
Proof.
  intros Wn Wu Wr. unfold parse_line. destruct (_ && _); [|reflexivity]. assert (E : py_words (name ++ " " ++ url ++ " " ++ remark) = [name; url; remark]); [|now rewrite E].
  assert (Bs : blank " ") by (intros c [<-|[]]; reflexivity). unfold py_words. rewrite words_word by apply Wn. change ("" ++ name) with name. rewrite words_gap by (exact Bs || discriminate || apply Wn).
  rewrite words_word by apply Wu. change ("" ++ url) with url. rewrite words_gap by (exact Bs || discriminate || apply Wu). rewrite <- (str_app_nil_r remark) at 1. rewrite words_word by apply Wr.
  change ("" ++ remark) with remark. rewrite words_end; [reflexivity|apply Wr|intros c []].
Qed.
