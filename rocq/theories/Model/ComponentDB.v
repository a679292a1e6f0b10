(** * ComponentDB: pisi/data/component.py 105-209 *)
From Coq Require Import String Ascii ZArith List.
From stdpp Require Import gmap strings.
From Verif Require Import Model.Py Model.ItemByRepo Model.Package.
Open Scope string_scope.

Notation compdb := (shelf component).
Implicit Types (d : compdb) (order : list string).

(** component.py 105-108 *)
Definition has_component d (name : string) (r : rarg) : res bool := has_key d name r.
(** component.py 110-114 *)
Definition get_component order d (name : string) (r : rarg) : res component := get_item order d name r.

(** component.py 123-138: get_union_comp with repo=repos.  [self.d.d.get(name)] is None
    for an unknown name; the first [s.has_key] then raises AttributeError.  The lists are
    the elements of Python sets, in some order. *)
Definition get_union_comp order d (name : string) : res component :=
  ks <- repo_order order RRepos ;;
  match d !! name with
  | None => match ks with [] => get_component order d name RRepos | _ => Err EAttribute end
  | Some s =>
      let sets := fold_left (fun acc k => match s !! k with
                     | Some c => (acc.1 ∪ list_to_set (c_packages c), acc.2 ∪ list_to_set (c_sources c))
                     | None => acc end) ks (∅, ∅) : gset string * gset string in
      comp <- get_component order d name RRepos ;;
      Ok (mkComponent (c_name comp) (c_info comp) (elements sets.1) (elements sets.2))
  end.

(** component.py 143-149 *)
Definition update_component order d (c : component) (r : rarg) : res compdb :=
  b <- has_component d (c_name c) r ;;
  if b then
    old <- get_item order d (c_name c) r ;;
    add_item d (c_name c) (mkComponent (c_name c) (c_info c) (c_packages old) (c_sources c)) r
  else add_item d (c_name c) c r.

(** [l.append(x)] unless already present *)
Definition append_new (x : string) (l : list string) : list string :=
  if str_in x l then l else (l ++ [x])%list.

(** [l.remove(x)]: the first occurrence *)
Fixpoint remove_first (x : string) (l : list string) : list string :=
  match l with
  | [] => []
  | y :: l' => if String.eqb x y then l' else y :: remove_first x l'
  end.

(** component.py 151-161: add_package.  [partOf] None or empty: AssertionError. *)
Definition comp_add_package order d (cname : option string) (package : string) (r : rarg) : res compdb :=
  match cname with
  | Some cn =>
      if truthy cname then
        b <- has_component d cn r ;;
        component <- (if b then get_component order d cn r else Ok (new_component cn)) ;;
        add_item d cn (mkComponent (c_name component) (c_info component)
                         (append_new package (c_packages component)) (c_sources component)) r
      else Err EAssert
  | None => Err EAssert
  end.

(** component.py 163-174: remove_package, for a repository argument that is given (the
    callers always give one).  [partOf] None: [str(None)] is looked up. *)
Definition comp_remove_package order d (cname : option string) (package : string) (r : rarg) : res compdb :=
  let cn := match cname with Some c => c | None => "None" end in
  b <- has_component d cn r ;;
  if b then
    component <- get_component order d cn r ;;
    add_item d cn (mkComponent (c_name component) (c_info component)
                     (remove_first package (c_packages component)) (c_sources component)) r
  else Err EError.

(** component.py 176-186: add_spec *)
Definition comp_add_spec order d (cname : option string) (spec : string) (r : rarg) : res compdb :=
  match cname with
  | Some cn =>
      if truthy cname then
        b <- has_component d cn r ;;
        component <- (if b then get_component order d cn r else Ok (new_component cn)) ;;
        add_item d cn (mkComponent (c_name component) (c_info component)
                         (c_packages component) (append_new spec (c_sources component))) r
      else Err EAssert
  | None => Err EAssert
  end.

(** component.py 188-199: remove_spec *)
Definition comp_remove_spec order d (cname : option string) (spec : string) (r : rarg) : res compdb :=
  let cn := match cname with Some c => c | None => "None" end in
  b <- has_component d cn r ;;
  if b then
    component <- get_component order d cn r ;;
    add_item d cn (mkComponent (c_name component) (c_info component)
                     (c_packages component) (remove_first spec (c_sources component))) r
  else Err EError.


(** op/component.py 28-35: expand_components; the result is a Python set. *)
Definition expand_components order d (A : list string) : res (gset string) :=
  foldM (fun Ap x =>
           b <- has_component d x RRepos ;;
           if b : bool then comp <- get_union_comp order d x ;; Ok (Ap ∪ list_to_set (c_packages comp))
           else Ok (Ap ∪ {[x]})) A ∅.

(** op/component.py 38-45: expand_src_components *)
Definition expand_src_components order d (A : list string) : res (gset string) :=
  foldM (fun Ap x =>
           b <- has_component d x RRepos ;;
           if b : bool then comp <- get_union_comp order d x ;; Ok (Ap ∪ list_to_set (c_sources comp))
           else Ok (Ap ∪ {[x]})) A ∅.
