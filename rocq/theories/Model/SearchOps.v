(** * pisi/op/search.py and the search API over the system databases *)
From Coq Require Import String Ascii ZArith List.
From stdpp Require Import gmap strings.
From Verif Require Import Model.Py Model.ItemByRepo Model.Dependency Model.Package Model.ComponentDB Model.Search Model.Databases.
Open Scope string_scope.

(** Python's [p in s] on strings *)
Fixpoint py_contains (s p : string) : bool :=
  py_startswith s p || match s with EmptyString => false | String _ s' => py_contains s' p end.

(** search/__init__.py 28-39 with api.py 95: [ctx.invidx[id][lang]] exists for the ids
    'summary', 'description' and the languages 'en', 'tr'; other keys are a KeyError. *)
Definition invidx (s : dbs) (id lang : string) : res index :=
  if str_in id ["summary"; "description"] && str_in lang ["en"; "tr"]
  then Ok (default ∅ (db_idx s !! (id, lang))) else Err EKey.

(** search/__init__.py 62-64 *)
Definition sys_query_terms (s : dbs) (id lang : string) (terms : list string) (r : rarg) : res (gset string) :=
  d <- invidx s id lang ;; query (order_of s) d (map (lower lang) terms) r.
(** search/__init__.py 66-68 *)
Definition sys_query (s : dbs) (id lang text : string) (r : rarg) : res (gset string) :=
  sys_query_terms s id lang (preprocess lang text) r.

(** op/search.py 29-35 *)
Definition search_package_names (s : dbs) (q : string) : res (gset string) :=
  l <- list_items (db_pkg s) RRepos ;;
  Ok (list_to_set (List.filter (fun n => py_contains n q) l)).

(** op/search.py 37-48, [lang] given *)
Definition search_package_terms (s : dbs) (terms : list string) (lang : string) (search_names : bool) (r : rarg)
  : res (gset string) :=
  r1 <- sys_query_terms s "summary" lang terms r ;;
  r2 <- sys_query_terms s "description" lang terms r ;;
  if search_names then foldM (fun acc t => n <- search_package_names s t ;; Ok (acc ∪ n)) terms (r1 ∪ r2)
  else Ok (r1 ∪ r2).

(** op/search.py 50-59, [lang] given *)
Definition search_package (s : dbs) (q lang : string) (search_names : bool) (r : rarg) : res (gset string) :=
  r1 <- sys_query s "summary" lang q r ;;
  r2 <- sys_query s "description" lang q r ;;
  if search_names then n <- search_package_names s q ;; Ok (r1 ∪ r2 ∪ n) else Ok (r1 ∪ r2).
