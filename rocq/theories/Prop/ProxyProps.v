(** * C99: proxies *)
From Coq Require Import String Ascii ZArith List Bool.
From stdpp Require Import gmap strings.
From Verif Require Import Model.Py Model.Path Model.Search Model.Config Model.Fetch Model.Uri Spec.PathSpec Spec.UriSpec Spec.ConfigSpec Proof.ConfigFacts Model.Proxy Spec.ProxySpec Proof.ProxyFacts.
Import ListNotations.
Open Scope string_scope.

(** C99.  If a proxy is set for the protocol of an address, fetching it makes connections for that
    address only, and they go through the proxy just if the proxy's own address is of that
    protocol and there is no part from an earlier attempt, or the surroundings say the same
    anyway.  Missing: the other cases, where it is not so. *)
Theorem C99_used_partial outer s limit partial_exists a protocol v proxy_protocol :
  remote_of a protocol -> set_for s protocol (CStr v) -> v <> "" -> proxy_address v proxy_protocol ->
  exists u h, parse_uri a = Ok (u, h) /\ exists cs, connections outer s false (Ok limit) partial_exists u = Ok cs /\ cs <> [] /\
    (forall c, In c cs -> c_address c = a) /\
    ((forall c, In c cs -> c_proxy c = Some v) <->
     (proxy_protocol = protocol \/ outer protocol = Some v) /\ (partial_exists = true -> outer protocol = Some v)).
Proof. exact (used outer s limit partial_exists a protocol v proxy_protocol). Qed.
Print Assumptions C99_used_partial.
(** If none is set, nothing of pisi's is used. *)
Theorem C99_unset outer s limit partial_exists u v : set_for s (u_scheme u) v -> not_set v ->
  exists cs, connections outer s false (Ok limit) partial_exists u = Ok cs /\ forall c, In c cs -> c_proxy c = outer (u_scheme u).
Proof. exact (unset outer s limit partial_exists u v). Qed.
Print Assumptions C99_unset.
(** The settings for other protocols do not matter. *)
Theorem C99_others outer s s' authinfo limit partial_exists u :
  (forall v, set_for s (u_scheme u) v <-> set_for s' (u_scheme u) v) ->
  connections outer s authinfo limit partial_exists u = connections outer s' authinfo limit partial_exists u.
Proof. exact (others outer s s' authinfo limit partial_exists u). Qed.
Print Assumptions C99_others.

(** What the configuration file says about a protocol's proxy is what is set for it. *)
Theorem C99_from_file env lines items p protocol key v : Forall2 reads_as lines items -> headed items -> read_lines lines = Ok p ->
  In (protocol, key) [("http", "http_proxy"); ("https", "https_proxy"); ("ftp", "ftp_proxy")] -> given items "general" key v -> v <> "True" -> v <> "False" ->
  set_for (configured env p) protocol (CStr v).
Proof.
  intros F H E I G T1 T2.
  assert (stands_for v (setting env p "general" key)) as S.
  { apply (setting_given env lines items p "general" key v F H E); [discriminate| |exact G]. cbn in I. destruct I as [I|[I|[I|[]]]]; injection I as <- <-; discriminate. }
  assert (setting env p "general" key = CStr v) as K by (inversion S; subst; congruence).
  rewrite <- K. cbn in I. destruct I as [I|[I|[I|[]]]]; injection I as <- <-; constructor.
Qed.
Print Assumptions C99_from_file.

Definition direct (_ : string) : option string := None.
Definition of_http v := mkProxies (CStr v) CNone CNone.
Lemma plain_host h : free_of "/" h -> free_of "?" h -> free_of "#" h -> free_of "[" h -> free_of "]" h -> host_text h.
Proof. intros A B C D E. split; [intros c [<-|[<-|[<-|[]]]]; assumption|]. split; intros _; assumption. Qed.
Ltac addr s h p := exists s, h, p; split; [reflexivity|]; split; [split; [discriminate|intros c I; cbn in I; intuition (subst; auto)]|]; split; [reflexivity|]; split;
  [apply plain_host; cbv; intuition discriminate|split; [first [left; reflexivity|right; eexists; reflexivity]|intros c [<-|[<-|[<-|[]]]]; cbv; intuition discriminate]].
Example C99_nontrivial : remote_of "http://h/zip-1.pisi" "http" /\ proxy_address "http://proxy:8080" "http" /\
  connections direct (of_http "http://proxy:8080") false (Ok 0%Z) false (URI "http://h/zip-1.pisi") = Ok [mkConnection "http://h/zip-1.pisi" (Some "http://proxy:8080")].
Proof. split; [addr "http" "h" "/zip-1.pisi"|]. split; [addr "http" "proxy:8080" ""|]. vm_compute. reflexivity. Qed.

(** A set proxy is not always used: *)
Definition always_used (outer : string -> option string) (s : proxy_settings) (a protocol v : string) (partial_exists : bool) : Prop :=
  remote_of a protocol -> set_for s protocol (CStr v) -> v <> "" ->
  exists cs, connections outer s false (Ok 0%Z) partial_exists (URI a) = Ok cs /\ forall c, In c cs -> c_proxy c = Some v.
(** - a proxy spoken to by http is not used for https; *)
Theorem C99_https_refuted : ~ forall outer s a protocol v, (exists w, proxy_address v w) -> always_used outer s a protocol v false.
Proof.
  intros H. destruct (H direct (mkProxies CNone (CStr "http://proxy:8080") CNone) "https://h/zip-1.pisi" "https" "http://proxy:8080") as (cs & E & C).
  - exists "http". addr "http" "proxy:8080" "".
  - addr "https" "h" "/zip-1.pisi".
  - apply (set_https (mkProxies CNone (CStr "http://proxy:8080") CNone)).
  - discriminate.
  - vm_compute in E. injection E as <-. specialize (C _ (or_introl eq_refl)). discriminate C.
Qed.
Print Assumptions C99_https_refuted.
(** - with a part of the file there, the server is asked directly whether it can resume; *)
Theorem C99_resume_refuted : ~ forall outer s a protocol v, proxy_address v protocol -> always_used outer s a protocol v true.
Proof.
  intros H. destruct (H direct (of_http "http://proxy:8080") "http://h/zip-1.pisi" "http" "http://proxy:8080") as (cs & E & C).
  - addr "http" "proxy:8080" "".
  - addr "http" "h" "/zip-1.pisi".
  - apply (set_http (of_http "http://proxy:8080")).
  - discriminate.
  - vm_compute in E. injection E as <-. specialize (C _ (or_introl eq_refl)). discriminate C.
Qed.
Print Assumptions C99_resume_refuted.
(** - one given by name and port is never used. *)
Theorem C99_port_refuted : ~ forall outer s a protocol v, always_used outer s a protocol v false.
Proof.
  intros H. destruct (H direct (of_http "proxy:8080") "http://h/zip-1.pisi" "http" "proxy:8080") as (cs & E & C).
  - addr "http" "h" "/zip-1.pisi".
  - apply (set_http (of_http "proxy:8080")).
  - discriminate.
  - vm_compute in E. injection E as <-. specialize (C _ (or_introl eq_refl)). discriminate C.
Qed.
Print Assumptions C99_port_refuted.
