(** * Proxies, as users set them *)
From Coq Require Import String Ascii ZArith List Bool.
From Verif Require Import Model.Py Model.Search Model.Config Spec.PathSpec Spec.UriSpec Model.Proxy.
Import ListNotations.
Open Scope string_scope.

(** The setting for a protocol *)
Inductive set_for (s : proxy_settings) : string -> cvalue -> Prop :=
| set_http : set_for s "http" (http_proxy s)
| set_https : set_for s "https" (https_proxy s)
| set_ftp : set_for s "ftp" (ftp_proxy s).
(** [v] is a proxy spoken to with protocol [t]: http://proxy.example.org:8080 *)
Definition proxy_address (v t : string) : Prop :=
  exists s h p, v = s ++ "://" ++ h ++ p /\ scheme_text s /\ t = py_lower s /\ host_text h /\ path_text p.
(** [a] is an address of protocol [t] *)
Definition remote_of (a t : string) : Prop := proxy_address a t.
(** Nothing is set *)
Definition not_set (v : cvalue) : Prop := v = CNone \/ v = CStr "" \/ v = CBool false \/ v = CInt 0%Z.
