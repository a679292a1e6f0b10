(** * Addresses and mirrors: pisi/uri.py, pisi/mirrors.py

    Includes Python 2.7.18's urlparse.urlparse with "file" as the scheme if there is none.  The
    texts are byte strings (uri.py 53: [str(uri)]). *)
From Coq Require Import String Ascii ZArith List Bool.
From stdpp Require Import gmap strings.
From Verif Require Import Model.Py Model.Path Model.Search Model.Fetch.
Import ListNotations.
Open Scope string_scope.

(** [s] up to the first such character, and the rest from there on *)
Fixpoint cut (stop : ascii -> bool) (s : string) : string * string :=
  match s with
  | EmptyString => ("", "")
  | String c s' => if stop c then ("", s) else let '(a, b) := cut stop s' in (String c a, b)
  end.
(** ** urlparse.py *)
(** scheme_chars *)
Definition scheme_char (c : ascii) : bool := is_letter c || is_digit c || char_in c "+-.".
(** urlsplit: the scheme.  'http' is taken at once; otherwise the rest must not be a port number. *)
Definition split_scheme (url : string) : string * string :=
  match cut (Ascii.eqb ":") url with
  | (pre, String _ rest) =>
      if String.eqb pre "" then ("file", url)
      else if String.eqb pre "http" then ("http", rest)
      else if forallb scheme_char (list_ascii_of_string pre) && (String.eqb rest "" || existsb (fun c => negb (is_digit c)) (list_ascii_of_string rest))
           then (py_lower pre, rest)
           else ("file", url)
  | (_, EmptyString) => ("file", url)
  end.
(** _splitnetloc *)
Definition split_netloc (url : string) : string * string :=
  if py_startswith url "//" then cut (fun c => char_in c "/?#") (py_drop 2 url) else ("", url).
(** [url.split(c, 1)[0]] *)
Definition upto (c : ascii) (s : string) : string := fst (cut (Ascii.eqb c) s).
(** uses_params *)
Definition uses_params : list string :=
  [""; "ftp"; "hdl"; "prospero"; "http"; "imap"; "https"; "shttp"; "rtsp"; "rtspu"; "sip"; "sips"; "mms"; "sftp"; "tel"].
(** _splitparams: the first semicolon after the last slash *)
Definition split_params (path : string) : string :=
  py_take (String.length path - String.length (basename path)) path ++ upto ";" (basename path).
Definition one_bracket (netloc : string) : bool :=
  (char_in "[" netloc && negb (char_in "]" netloc)) || (char_in "]" netloc && negb (char_in "[" netloc)).
(** uri.py 50-63: [set_uri]; with the location *)
Definition parse_uri (text : string) : res (uri * string) :=
  let '(scheme, rest) := split_scheme text in
  let '(netloc, rest) := split_netloc rest in
  if one_bracket netloc then Err EValue                                  (* Invalid IPv6 URL *)
  else let path := upto "?" (upto "#" rest) in
       let path := if existsb (String.eqb scheme) uses_params && char_in ";" path then split_params path else path in
       Ok (mkUri text scheme path (basename path), netloc).

(** ** mirrors.py *)
(** [line.strip().split()] *)
Fixpoint words_from (s cur : string) : list string :=
  match s with
  | EmptyString => if String.eqb cur "" then [] else [cur]
  | String c s => if is_space c then (if String.eqb cur "" then words_from s "" else cur :: words_from s "") else words_from s (cur ++ String c "")
  end.
Definition py_words (s : string) : list string := words_from s "".
(** mirrors.py 30-38: [get_mirrors] and [_add_mirror] *)
Definition add_mirror (m : gmap string (list string)) (name url : string) : gmap string (list string) :=
  <[ name := (default [] (m !! name) ++ [url])%list ]> m.
Definition get_mirrors (m : gmap string (list string)) (name : string) : option (list string) := m !! name.
(** mirrors.py 40-51; [None] is a file that does not exist.  Each line but perhaps the last ends in
    a newline character. *)
Definition parse_line (m : gmap string (list string)) (line : string) : gmap string (list string) :=
  if negb (py_startswith line "#") && negb (String.eqb line (String newline "")) then
    match py_words line with
    | [name; url] => add_mirror m name url
    | _ => m
    end
  else m.
Definition parse_mirrors (lines : option (list string)) : res (gmap string (list string)) :=
  match lines with
  | Some lines => Ok (fold_left parse_line lines ∅)
  | None => Err EError
  end.
(** The object as a whole, for fetcher.py.  An address that cannot be taken apart is a ValueError
    in the program; here it is one without a file name, which cannot be fetched either. *)
Definition URI (text : string) : uri :=
  match parse_uri text with Ok (u, _) => u | Err _ => mkUri text "" "" "" end.
(** fetcher.py 372-376: [Mirrors().get_mirrors(name)], nothing for None *)
Definition mirrors_of (m : gmap string (list string)) (name : string) : list string := default [] (get_mirrors m name).
