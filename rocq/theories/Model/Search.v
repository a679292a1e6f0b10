(** * pisi/search: tokenising, preprocessing and the inverted index

    Simplification: text is a byte string; bytes from 128 up stand for characters that
    are neither separators nor subject to case folding. *)
From Coq Require Import String Ascii ZArith List.
From stdpp Require Import gmap strings.
From Verif Require Import Model.Py Model.ItemByRepo.
Open Scope string_scope.

(** [string.punctuation]: ASCII 33-47, 58-64, 91-96, 123-126 *)
Definition is_punct (c : ascii) : bool :=
  let n := nat_of_ascii c in
  (((33 <=? n) && (n <=? 47)) || ((58 <=? n) && (n <=? 64)) ||
   ((91 <=? n) && (n <=? 96)) || ((123 <=? n) && (n <=? 126)))%nat.

(** search/tokenize.py 23: the separator test *)
Definition is_sep (c : ascii) : bool := is_space c || is_punct c.

(** search/tokenize.py 18-34: the loop, with the token under construction (reversed). *)
Fixpoint tokenize_loop (s : string) (token : string) : list string :=
  match s with
  | EmptyString => if truthy (Some token) then [str_rev token] else []
  | String x s' =>
      if is_sep x then
        if truthy (Some token) then str_rev token :: tokenize_loop s' EmptyString
        else tokenize_loop s' EmptyString
      else tokenize_loop s' (String x token)
  end.
Definition tokenize (s : string) : list string := tokenize_loop s EmptyString.

(** Python's [c.lower()] on ASCII *)
Definition lower_char (c : ascii) : ascii :=
  if is_upper c then ascii_of_nat (nat_of_ascii c + 32) else c.
Fixpoint str_map (f : ascii -> ascii) (s : string) : string :=
  match s with EmptyString => EmptyString | String c s' => String (f c) (str_map f s') end.
Definition py_lower (s : string) : string := str_map lower_char s.

(** search/preprocess.py 16-27: [lowly_char] computes a lower-case character into
    [lowly] and then returns [c]. *)
Definition lowly_char (c : ascii) : ascii :=
  let lowly := if Ascii.eqb c "I" then "i"%char else lower_char c in c.
Definition lowly_python (s : string) : string := str_map lowly_char s.

(** search/preprocess.py 29-33 *)
Definition lower (lang s : string) : string :=
  if String.eqb lang "tr" then lowly_python s else py_lower s.

(** search/preprocess.py 35-41 *)
Definition preprocess (lang s : string) : list string :=
  map (lower lang) (tokenize s).

(** ** search/invertedindex.py.  A shelf from terms to sets of documents. *)
Notation index := (shelf (gset string)).

(** invertedindex.py 32-39: get_term *)
Definition get_term (order : list string) (d : index) (term : string) (r : rarg) : res (gset string) :=
  b <- has_key d term r ;;
  if b then get_item order d term r else Ok ∅.

(** invertedindex.py 41-53: get_union_term.  [repo=None] means the repositories. *)
Definition get_union_term (order : list string) (d : index) (term : string) (r : rarg) : res (gset string) :=
  match d !! term with
  | None => Ok ∅
  | Some s =>
      ks <- repo_order order r ;;
      Ok (fold_left (fun acc k => match s !! k with Some docs => acc ∪ docs | None => acc end) ks ∅)
  end.

(** invertedindex.py 55-62: query *)
Definition query (order : list string) (d : index) (terms : list string) (r : rarg) : res (gset string) :=
  docs <- mapM (fun x => get_union_term order d x r) terms ;;
  match docs with
  | [] => Ok ∅
  | x :: l => Ok (fold_left (fun a b => a ∩ b) l x)
  end.

(** invertedindex.py 67-74: add_doc *)
Definition add_doc (order : list string) (d : index) (doc : string) (terms : list string) (r : rarg) : res index :=
  foldM (fun d term =>
           docs <- get_term order d term r ;;
           add_item d term (docs ∪ {[doc]}) r) terms d.

(** invertedindex.py 76-84: remove_doc *)
Definition remove_doc (order : list string) (d : index) (doc : string) (terms : list string) (r : rarg) : res index :=
  foldM (fun d term =>
           docs <- get_term order d term r ;;
           add_item d term (docs ∖ {[doc]}) r) terms d.

(** search/__init__.py 62-68: query_terms, query *)
Definition search_query (order : list string) (d : index) (lang : string) (text : string) (r : rarg) : res (gset string) :=
  query order d (map (lower lang) (preprocess lang text)) r.
