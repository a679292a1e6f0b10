From Coq Require Import String Ascii ZArith List Bool.
From stdpp Require Import gmap strings.
From Verif Require Import Model.Py Model.Path Model.Search Model.Config Model.Fetch Model.Uri Spec.PathSpec Spec.UriSpec Proof.PyFacts Proof.UriFacts Model.Proxy Spec.ProxySpec.
Import ListNotations.
Open Scope string_scope.

Lemma proxy_parsed v t : proxy_address v t -> exists u h, parse_uri v = Ok (u, h) /\ u_scheme u = t /\ u_uri u = v.
Proof.
  intros (s & h & p & -> & S & -> & H & P).
  destruct (remote_address s h p (basename p) S H P) as (u & E & U & C & _); [now apply last_basename|].
  exists u, h. auto.
Qed.
Lemma truth_not_set v : truth v = false <-> not_set v.
Proof.
  unfold not_set. destruct v as [s|[|]|z|]; cbn.
  - rewrite negb_false_iff, String.eqb_eq. split; [intros ->; auto|intros [E|[E|[E|E]]]; try discriminate; congruence].
  - split; [discriminate|intros [E|[E|[E|E]]]; discriminate].
  - split; auto.
  - rewrite negb_false_iff, Z.eqb_eq. split; [intros ->; auto|intros [E|[E|[E|E]]]; try discriminate; congruence].
  - split; auto.
Qed.
Definition protocol (t : string) : Prop := t = "http" \/ t = "https" \/ t = "ftp".
Lemma set_for_protocol s t v : set_for s t v -> protocol t.
Proof. unfold protocol. destruct 1; auto. Qed.

Lemma get_proxies_for s u v : set_for s (u_scheme u) v -> get_proxies s u = add_proxy (u_scheme u) (u_scheme u) v ∅.
Proof.
  intros F. unfold get_proxies. remember (u_scheme u) as t eqn:Et. clear Et.
  destruct F; unfold add_proxy; cbn [String.eqb Ascii.eqb Bool.eqb]; rewrite ?andb_false_r, ?andb_true_r; cbn [bind].
  - destruct (truth _); [|reflexivity]. destruct (parse_uri _) as [[? ?]|]; reflexivity.
  - destruct (truth _); [|reflexivity]. destruct (parse_uri _) as [[? ?]|]; reflexivity.
  - destruct (truth _); [|reflexivity]. destruct (parse_uri _) as [[? ?]|]; reflexivity.
Qed.
Lemma get_proxies_other s u : (forall v, ~ set_for s (u_scheme u) v) -> get_proxies s u = Ok ∅.
Proof.
  intros N. unfold get_proxies.
  assert (String.eqb (u_scheme u) "http" = false) as E1 by (apply String.eqb_neq; intros E; apply (N (http_proxy s)); rewrite E; constructor).
  assert (String.eqb (u_scheme u) "https" = false) as E2 by (apply String.eqb_neq; intros E; apply (N (https_proxy s)); rewrite E; constructor).
  assert (String.eqb (u_scheme u) "ftp" = false) as E3 by (apply String.eqb_neq; intros E; apply (N (ftp_proxy s)); rewrite E; constructor).
  unfold add_proxy. rewrite E1, E2, E3, !andb_false_r. reflexivity.
Qed.

Section c.
  Context (outer : string -> option string).
  Notation conns := (connections outer).

  Lemma used s z partial a t v w : remote_of a t -> set_for s t (CStr v) -> v <> "" -> proxy_address v w ->
    exists u h, parse_uri a = Ok (u, h) /\ exists cs, conns s false (Ok z) partial u = Ok cs /\ cs <> [] /\ (forall c, In c cs -> c_address c = a) /\
      ((forall c, In c cs -> c_proxy c = Some v) <-> (w = t \/ outer t = Some v) /\ (partial = true -> outer t = Some v)).
  Proof.
    intros A F N V. destruct (proxy_parsed a t A) as (u & h & E & <- & <-). exists u, h. split; [exact E|].
    destruct (proxy_parsed v w V) as (q & qh & Eq & <- & Uq).
    unfold connections. cbn [andb]. rewrite (get_proxies_for s u (CStr v) F). unfold add_proxy.
    assert (truth (CStr v) = true) as -> by (cbn; apply negb_true_iff; now apply String.eqb_neq).
    rewrite String.eqb_refl. cbn [andb text_of]. rewrite Eq. cbn [bind].
    eexists. split; [reflexivity|]. split; [unfold range_connections; destruct partial; discriminate|]. split.
    { intros c I. apply in_app_iff in I. unfold range_connections in I. destruct I as [I|[<-|[]]]; [|reflexivity]. destruct partial; [|destruct I]. destruct I as [<-|[]]. reflexivity. }
    split.
    - intros H. split.
      + specialize (H (mkConnection (u_uri u) (match (<[u_scheme q:=v]> ∅ : gmap string string) !! u_scheme u with Some p => Some p | None => outer (u_scheme u) end))).
        cbn [c_proxy] in H. destruct (String.eqb_spec (u_scheme q) (u_scheme u)) as [W|W]; [now left|]. right.
        rewrite lookup_insert_ne in H by exact W. rewrite lookup_empty in H. apply H. apply in_app_iff. right. now left.
      + intros ->. apply (H (mkConnection (u_uri u) (outer (u_scheme u)))). now left.
    - intros [H1 H2] c I. apply in_app_iff in I. unfold range_connections in I. destruct I as [I|[<-|[]]].
      + destruct partial; [|destruct I]. destruct I as [<-|[]]. cbn. auto.
      + cbn [c_proxy]. destruct (String.eqb_spec (u_scheme q) (u_scheme u)) as [W|W].
        * rewrite W, lookup_insert. reflexivity.
        * rewrite lookup_insert_ne by exact W. rewrite lookup_empty. destruct H1; [contradiction|assumption].
  Qed.
  Lemma unset s z partial u v : set_for s (u_scheme u) v -> not_set v ->
    exists cs, conns s false (Ok z) partial u = Ok cs /\ forall c, In c cs -> c_proxy c = outer (u_scheme u).
  Proof.
    intros F V. unfold connections. cbn [andb]. rewrite (get_proxies_for s u v F). unfold add_proxy. apply truth_not_set in V. rewrite V. cbn [andb bind].
    eexists. split; [reflexivity|]. intros c I. apply in_app_iff in I. unfold range_connections in I. rewrite lookup_empty in I. destruct I as [I|[<-|[]]]; [|reflexivity].
    destruct partial; [|destruct I]. destruct I as [<-|[]]. reflexivity.
  Qed.
  Lemma others s s' authinfo z partial u : (forall v, set_for s (u_scheme u) v <-> set_for s' (u_scheme u) v) ->
    conns s authinfo z partial u = conns s' authinfo z partial u.
  Proof.
    intros H. unfold connections. assert (get_proxies s u = get_proxies s' u) as ->; [|reflexivity].
    destruct (string_dec (u_scheme u) "http") as [E|E1].
    { assert (set_for s (u_scheme u) (http_proxy s)) as F by (rewrite E; constructor). rewrite (get_proxies_for s u _ F). apply H in F. now rewrite (get_proxies_for s' u _ F). }
    destruct (string_dec (u_scheme u) "https") as [E|E2].
    { assert (set_for s (u_scheme u) (https_proxy s)) as F by (rewrite E; constructor). rewrite (get_proxies_for s u _ F). apply H in F. now rewrite (get_proxies_for s' u _ F). }
    destruct (string_dec (u_scheme u) "ftp") as [E|E3].
    { assert (set_for s (u_scheme u) (ftp_proxy s)) as F by (rewrite E; constructor). rewrite (get_proxies_for s u _ F). apply H in F. now rewrite (get_proxies_for s' u _ F). }
    rewrite !get_proxies_other; [reflexivity| |]; intros v F; apply set_for_protocol in F; destruct F as [F|[F|F]]; contradiction.
  Qed.
End c.
