(** * Which proxy a transfer goes through: pisi/fetcher.py 238-253 and 271-316

    A connection is the address asked for and the proxy it is asked through.  What is transferred
    is in Fetch.v. *)
From Coq Require Import String Ascii ZArith List Bool.
From stdpp Require Import gmap strings.
From Verif Require Import Model.Py Model.Config Model.Fetch Model.Uri.
Import ListNotations.
Open Scope string_scope.

Record connection := mkConnection { c_address : string; c_proxy : option string }.
(** ctx.config.values.general: http_proxy, https_proxy, ftp_proxy *)
Record proxy_settings := mkProxies { http_proxy : cvalue; https_proxy : cvalue; ftp_proxy : cvalue }.
(** configfile.py 62-72 and 105-137 *)
Definition configured (env : string -> option string) (p : parser) : proxy_settings :=
  mkProxies (setting env p "general" "http_proxy") (setting env p "general" "https_proxy") (setting env p "general" "ftp_proxy").

(** [str(value)], uri.py 51 *)
Definition text_of (v : cvalue) : string :=
  match v with CStr s => s | CBool true => "True" | CBool false => "False" | CInt z => str_of_Z z | CNone => "None" end.
(** fetcher.py 274-275, 277-278, 280-281 *)
Definition add_proxy (scheme protocol : string) (v : cvalue) (proxies : gmap string string) : res (gmap string string) :=
  if truth v && String.eqb scheme protocol then
    match parse_uri (text_of v) with
    | Ok (u, _) => Ok (<[u_scheme u := text_of v]> proxies)
    | Err e => Err e
    end
  else Ok proxies.
(** fetcher.py 271-286 *)
Definition get_proxies (s : proxy_settings) (u : uri) : res (gmap string string) :=
  proxies <- add_proxy (u_scheme u) "http" (http_proxy s) ∅ ;;
  proxies <- add_proxy (u_scheme u) "https" (https_proxy s) proxies ;;
  add_proxy (u_scheme u) "ftp" (ftp_proxy s) proxies.

Section connections.
  (** What urllib2 and urlgrabber use for a scheme if they are not told *)
  Context (outer : string -> option string).
  (** fetcher.py 296-304: the answer to this decides whether a transfer is resumed *)
  Definition range_connections (partial_exists : bool) (u : uri) : list connection :=
    if partial_exists then [mkConnection (u_uri u) (outer (u_scheme u))] else [].
  (** fetcher.py 239-250.  The arguments are computed first: the headers (257-269: base64 is not
      defined), the proxies, the limit (a parameter; Config.v), the range. *)
  Definition connections (s : proxy_settings) (authinfo : bool) (limit : res Z) (partial_exists : bool) (u : uri) : res (list connection) :=
    if authinfo && (String.eqb (u_scheme u) "http" || String.eqb (u_scheme u) "https" || String.eqb (u_scheme u) "ftp") then Err EName
    else
      proxies <- get_proxies s u ;;
      _ <- limit ;;
      Ok (range_connections partial_exists u ++
          [mkConnection (u_uri u) (match proxies !! u_scheme u with Some p => Some p | None => outer (u_scheme u) end)])%list.
End connections.
