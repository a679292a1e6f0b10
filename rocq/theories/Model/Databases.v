(** * The repository, package and source databases together

    pisi/db/repo.py, pisi/db/package.py, pisi/db/source.py, pisi/data/index.py update_db,
    pisi/op/repo.py.  One record holds all shelves; a procedure run inside a transaction
    returns either the new record or an exception (and then nothing has changed). *)
From Coq Require Import String Ascii ZArith List.
From stdpp Require Import gmap strings.
From Verif Require Import Model.Py Model.ItemByRepo Model.Dependency Model.Package Model.ComponentDB Model.Search.
Open Scope string_scope.

(** db/repo.py 41-49: the "repo" shelf has one key "repo-NAME" per repository and the key
    "order"; the record keeps the two kinds of keys apart (they cannot coincide). *)
Record repodb := mkRepoDB {
  rd_infos : gmap string string;   (* name -> index URI *)
  rd_order : list string
}.

Record dbs := mkDbs {
  db_repo : repodb;
  db_pkg : shelf package;                          (* PackageDB.d *)
  db_rev : shelf (list (string * dependency));     (* PackageDB.dr *)
  db_src : shelf spec;                             (* SourceDB.d *)
  db_p2s : shelf string;                           (* SourceDB.dpkgtosrc *)
  db_comp : compdb;
  db_idx : gmap (string * string) index            (* ctx.invidx[id][lang] *)
}.
Definition empty_dbs : dbs := mkDbs (mkRepoDB ∅ []) ∅ ∅ ∅ ∅ ∅ ∅.

Definition order_of (s : dbs) : list string := rd_order (db_repo s).
Definition set_repo (s : dbs) x := mkDbs x (db_pkg s) (db_rev s) (db_src s) (db_p2s s) (db_comp s) (db_idx s).
Definition set_pkg (s : dbs) x := mkDbs (db_repo s) x (db_rev s) (db_src s) (db_p2s s) (db_comp s) (db_idx s).
Definition set_rev (s : dbs) x := mkDbs (db_repo s) (db_pkg s) x (db_src s) (db_p2s s) (db_comp s) (db_idx s).
Definition set_src (s : dbs) x := mkDbs (db_repo s) (db_pkg s) (db_rev s) x (db_p2s s) (db_comp s) (db_idx s).
Definition set_p2s (s : dbs) x := mkDbs (db_repo s) (db_pkg s) (db_rev s) (db_src s) x (db_comp s) (db_idx s).
Definition set_comp (s : dbs) x := mkDbs (db_repo s) (db_pkg s) (db_rev s) (db_src s) (db_p2s s) x (db_idx s).
Definition set_idx (s : dbs) x := mkDbs (db_repo s) (db_pkg s) (db_rev s) (db_src s) (db_p2s s) (db_comp s) x.

(** ** RepoDB *)

(** db/repo.py 67-69 *)
Definition has_repo (rd : repodb) (name : string) : bool :=
  match rd_infos rd !! name with Some _ => true | None => false end.

(** db/repo.py 75-91.  [at]: None or a Python int. *)
Definition repo_add (rd : repodb) (name uri : string) (at_ : option Z) : res repodb :=
  if has_repo rd name then Err EError
  else
    let infos := <[name := uri]> (rd_infos rd) in
    match at_ with
    | None => Ok (mkRepoDB infos (rd_order rd ++ [name])%list)
    | Some z =>
        if (z <? 0)%Z || (Z.of_nat (length (rd_order rd)) <? z)%Z then Err EError
        else Ok (mkRepoDB infos (take (Z.to_nat z) (rd_order rd) ++ name :: drop (Z.to_nat z) (rd_order rd))%list)
    end.

(** db/repo.py 99-105: the part that touches the repository shelf.  Deleting a missing
    key is a DBNotFoundError; [list.remove] of a missing name is a ValueError. *)
Definition repo_remove (rd : repodb) (name : string) : res repodb :=
  match rd_infos rd !! name with
  | None => Err EDB
  | Some _ =>
      if str_in name (rd_order rd)
      then Ok (mkRepoDB (delete name (rd_infos rd)) (remove_first name (rd_order rd)))
      else Err EValue
  end.

(** ** PackageDB *)

(** db/package.py 56-57, 59-63 *)
Definition has_package (s : dbs) (name : string) (r : rarg) : res bool := has_key (db_pkg s) name r.
Definition get_package (s : dbs) (name : string) (r : rarg) : res package :=
  get_item (order_of s) (db_pkg s) name r.

(** db/package.py 71-75 *)
Definition get_rev_deps (s : dbs) (name : string) (r : rarg) : res (list (string * dependency)) :=
  b <- has_key (db_rev s) name r ;;
  if b then get_item (order_of s) (db_rev s) name r else Ok [].

(** db/package.py 77-82 *)
Definition get_deps (s : dbs) (name : string) (r : rarg) : res (list dependency) :=
  b <- has_key (db_pkg s) name r ;;
  if b then p <- get_item (order_of s) (db_pkg s) name r ;; Ok (p_deps p) else Ok [].

(** db/package.py 102, 129: [filter(lambda (n,d): n != name, revdep)] *)
Definition drop_name (name : string) (l : list (string * dependency)) : list (string * dependency) :=
  List.filter (fun nd : string * dependency => negb (String.eqb nd.1 name)) l.

(** db/package.py 98-106: the loop body for one dependency *)
Definition add_revdep (order : list string) (dr : shelf (list (string * dependency)))
    (name : string) (r : rarg) (dep : dependency) : res (shelf (list (string * dependency))) :=
  b <- has_key dr (dep_package dep) r ;;
  if b then
    revdep <- get_item order dr (dep_package dep) r ;;
    add_item dr (dep_package dep) (drop_name name revdep ++ [(name, dep)])%list r
  else add_item dr (dep_package dep) [(name, dep)] r.

(** db/package.py 109-114, 136-141: index the texts in 'en' and 'tr'. *)
Definition index_texts (f : index -> string -> list string -> res index)
    (id docid : string) (texts : list (string * string)) (idx : gmap (string * string) index)
  : res (gmap (string * string) index) :=
  foldM (fun idx lt =>
           let '(lang, text) := (lt : string * string) in
           if str_in lang ["en"; "tr"] then
             d <- f (default ∅ (idx !! (id, lang))) docid (preprocess lang text) ;;
             Ok (<[(id, lang) := d]> idx)
           else Ok idx) texts idx.

(** db/package.py 92-116: add_package inside a transaction *)
Definition add_package (s : dbs) (p : package) (r : rarg) : res dbs :=
  let name := p_name p in
  let order := order_of s in
  d <- add_item (db_pkg s) name p r ;;
  deps <- runtimeDependencies p ;;
  dr <- foldM (fun dr dep => add_revdep order dr name r dep) deps (db_rev s) ;;
  cd <- comp_add_package order (db_comp s) (p_partOf p) name r ;;
  i1 <- index_texts (fun d doc terms => add_doc order d doc terms r) "summary" name (p_summary p) (db_idx s) ;;
  i2 <- index_texts (fun d doc terms => add_doc order d doc terms r) "description" name (p_description p) i1 ;;
  Ok (set_idx (set_comp (set_rev (set_pkg s d) dr) cd) i2).

(** db/package.py 127-131: the loop body for one dependency *)
Definition drop_revdep (order : list string) (dr : shelf (list (string * dependency)))
    (name : string) (r : rarg) (dep : dependency) : res (shelf (list (string * dependency))) :=
  b <- has_key dr (dep_package dep) r ;;
  if b then
    revdep <- get_item order dr (dep_package dep) r ;;
    add_item dr (dep_package dep) (drop_name name revdep) r
  else Ok dr.

(** db/package.py 122-142: remove_package, [repo] given *)
Definition remove_package (s : dbs) (name : string) (r : rarg) : res dbs :=
  let order := order_of s in
  p <- get_item order (db_pkg s) name r ;;
  d <- remove_item order (db_pkg s) name r ;;
  deps <- runtimeDependencies p ;;
  dr <- foldM (fun dr dep => drop_revdep order dr name r dep) deps (db_rev s) ;;
  b <- has_key dr name r ;;
  dr' <- (if b : bool then remove_item order dr name r else Ok dr) ;;
  cd <- comp_remove_package order (db_comp s) (p_partOf p) (p_name p) r ;;
  i1 <- index_texts (fun d doc terms => remove_doc order d doc terms r) "summary" (p_name p) (p_summary p) (db_idx s) ;;
  i2 <- index_texts (fun d doc terms => remove_doc order d doc terms r) "description" (p_name p) (p_description p) i1 ;;
  Ok (set_idx (set_comp (set_rev (set_pkg s d) dr') cd) i2).

(** db/package.py 144-148 *)
Definition pkg_remove_repo (s : dbs) (r : rarg) : res dbs :=
  d <- remove_repo_items (db_pkg s) r ;;
  dr <- remove_repo_items (db_rev s) r ;;
  Ok (set_rev (set_pkg s d) dr).

(** db/package.py 152-157 *)
Definition remove_tracking_package (s : dbs) (name : string) : res dbs :=
  b1 <- has_package s name RInst ;;
  s1 <- (if b1 : bool then remove_package s name RInst else Ok s) ;;
  b2 <- has_package s1 name RThird ;;
  if b2 : bool then remove_package s1 name RThird else Ok s1.

(** ** SourceDB *)

(** db/source.py 72-80 (the spec has no errors()) *)
Definition add_spec (s : dbs) (sp : spec) (r : rarg) : res dbs :=
  d <- add_item (db_src s) (sp_name sp) sp r ;;
  ps <- foldM (fun ps p => add_item ps (p_name p) (sp_name sp) r) (sp_packages sp) (db_p2s s) ;;
  cd <- comp_add_spec (order_of s) (db_comp s) (sp_partOf sp) (sp_name sp) r ;;
  Ok (set_comp (set_p2s (set_src s d) ps) cd).

(** db/source.py 82-92: remove_spec; [self.d.remove_item(name, txn=txn)] does not pass
    the repository on. *)
Definition remove_spec (s : dbs) (name : string) (r : rarg) : res dbs :=
  let order := order_of s in
  b <- has_key (db_src s) name RRepos ;;
  if b : bool then
    sp <- get_item order (db_src s) name r ;;
    d <- remove_item order (db_src s) name RRepos ;;
    ps <- foldM (fun ps p => remove_item_repo ps (p_name p) r) (sp_packages sp) (db_p2s s) ;;
    cd <- comp_remove_spec order (db_comp s) (sp_partOf sp) (sp_name sp) r ;;
    Ok (set_comp (set_p2s (set_src s d) ps) cd)
  else Err EAssert.

(** db/source.py 94-98 *)
Definition src_remove_repo (s : dbs) (r : rarg) : res dbs :=
  d <- remove_repo_items (db_src s) r ;;
  ps <- remove_repo_items (db_p2s s) r ;;
  Ok (set_p2s (set_src s d) ps).

(** component.py 208-209 *)
Definition comp_remove_repo (s : dbs) (r : rarg) : res dbs :=
  d <- remove_repo_items (db_comp s) r ;; Ok (set_comp s d).

(** ** Whole operations *)

(** data/index.py 40-48: what an index carries *)
Record pindex := mkIndex {
  ix_components : list component;
  ix_packages : list package;
  ix_specs : list spec
}.

(** data/index.py 102-111: update_db *)
Definition update_db (s : dbs) (ix : pindex) (repo : string) : res dbs :=
  let r := RName repo in
  s1 <- comp_remove_repo s r ;;
  s2 <- foldM (fun s c => cd <- update_component (order_of s) (db_comp s) c r ;; Ok (set_comp s cd))
              (ix_components ix) s1 ;;
  s3 <- pkg_remove_repo s2 r ;;
  s4 <- foldM (fun s p => add_package s p r) (ix_packages ix) s3 ;;
  s5 <- src_remove_repo s4 r ;;
  foldM (fun s sp => add_spec s sp r) (ix_specs ix) s5.

(** db/repo.py 99-109 *)
Definition remove_repo (s : dbs) (name : string) : res dbs :=
  rd <- repo_remove (db_repo s) name ;;
  s1 <- pkg_remove_repo (set_repo s rd) (RName name) ;;
  s2 <- src_remove_repo s1 (RName name) ;;
  comp_remove_repo s2 (RName name).

(** db/repo.py 75-91 *)
Definition add_repo (s : dbs) (name uri : string) (at_ : option Z) : res dbs :=
  rd <- repo_add (db_repo s) name uri at_ ;; Ok (set_repo s rd).

(** op/repo.py 33-39 *)
Definition op_add_repo (s : dbs) (name uri : string) (at_ : option Z) : res dbs :=
  if has_repo (db_repo s) name then Err EError else add_repo s name uri at_.

(** op/repo.py 41-48: an unknown name only prints an error. *)
Definition op_remove_repo (s : dbs) (name : string) : res dbs :=
  if has_repo (db_repo s) name then remove_repo s name else Ok s.

(** op/repo.py 53-77 once the index has been read: [ix] is what the server delivered. *)
Definition op_update_repo (s : dbs) (name : string) (ix : pindex) : res dbs :=
  if has_repo (db_repo s) name then update_db s ix name else Err EError.
