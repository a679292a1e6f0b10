(** * Making an index

    pisi/data/index.py 85-103, 115-165 and pisi/op/index.py: what `pisi index` collects from
    the directories it is given.  Writing it down is C48, reading it into the databases
    [update_db] of Model/Databases.v. *)
From Coq Require Import String Ascii List Bool.
From stdpp Require Import gmap strings.
From Verif Require Import Model.Py Model.Path Model.Package Model.ComponentDB Model.Databases.
Open Scope string_scope.

(** What the readers make of one file.  [f_package]: index.py 115-122, 132-133: metadata.xml of
    the package, and whether it has no errors after having been read.  [f_spec]: index.py
    151-159: Builder(path), fetch_component(). *)
Record content := mkContent {
  f_package : res (package * bool);
  f_component : res component;
  f_spec : res spec;
  f_distro : res string
}.

(** What os.walk finds: the files and the directories of a directory, in the order in which
    they are listed.  Links to directories are not followed and not part of it. *)
Inductive tree := Dir (files : list (string * content)) (subs : list (string * tree)).

(** The lists of data/index.py 45-50, packages and specs with their packageURI and sourceURI.
    The package's size is left out. *)
Record made := mkMade {
  m_packages : list (package * string);
  m_components : list component;
  m_specs : list (spec * string);
  m_distro : option string
}.
Definition no_index : made := mkMade [] [] [] None.

(** posixpath.join of two *)
Definition os_join (a b : string) : string :=
  if py_startswith b "/" then b
  else if String.eqb a "" || py_endswith a "/" then a +:+ b else a +:+ "/" +:+ b.

Section making.
  (** the options --absolute-uris (with os.path.realpath), --skip-sources, --non-recursive *)
  Context (absolute : option (string -> string)) (skip_sources non_recursive : bool).

  (** index.py 123-129, 160-163 *)
  Definition address (repo_uri path : string) : res string :=
    match absolute with
    | Some realpath => Ok (realpath path)
    | None => removepathprefix repo_uri path
    end.
  (** index.py 115-135; a package with errors is skipped *)
  Definition index_package (repo_uri path : string) (c : content) (ix : made) : res made :=
    md <- f_package c ;;
    uri <- address repo_uri path ;;
    if md.2 : bool then Ok (mkMade (m_packages ix ++ [(md.1, uri)])%list (m_components ix) (m_specs ix) (m_distro ix))
    else Ok ix.
  (** index.py 137-144 *)
  Definition index_component (c : content) (ix : made) : res made :=
    comp <- f_component c ;;
    Ok (mkMade (m_packages ix) (m_components ix ++ [comp])%list (m_specs ix) (m_distro ix)).
  (** index.py 151-165 *)
  Definition index_spec (repo_uri path : string) (c : content) (ix : made) : res made :=
    sf <- f_spec c ;;
    uri <- address repo_uri path ;;
    Ok (mkMade (m_packages ix) (m_components ix) (m_specs ix ++ [(sf, uri)])%list (m_distro ix)).
  (** index.py 146-149 *)
  Definition index_distro (c : content) (ix : made) : res made :=
    d <- f_distro c ;; Ok (mkMade (m_packages ix) (m_components ix) (m_specs ix) (Some d)).

  (** index.py 88-99: the loop body *)
  Definition index_one (repo_uri root : string) (ix : made) (f : string * content) : res made :=
    let path := os_join root f.1 in
    ix <- (if py_endswith f.1 package_suffix then index_package repo_uri path f.2 ix else Ok ix) ;;
    ix <- (if String.eqb f.1 "component.xml" then index_component f.2 ix else Ok ix) ;;
    ix <- (if String.eqb f.1 "pspec.xml" && negb skip_sources then index_spec repo_uri path f.2 ix else Ok ix) ;;
    if String.eqb f.1 "distribution.xml" then index_distro f.2 ix else Ok ix.

  (** index.py 87-101, with os.walk: the files of [root], then its directories one by one *)
  Fixpoint index_tree (repo_uri root : string) (t : tree) (ix : made) : res made :=
    match t with
    | Dir files subs =>
        ix <- foldM (index_one repo_uri root) files ix ;;
        if non_recursive then Ok ix
        else (fix go (subs : list (string * tree)) (ix : made) : res made :=
                match subs with
                | [] => Ok ix
                | (n, t) :: subs => ix <- index_tree repo_uri (os_join root n) t ix ;; go subs ix
                end) subs ix
    end.

  (** op/index.py 28-38: [at_] gives what is in a directory *)
  Definition make_index (at_ : string -> tree) (dirs : list string) : res made :=
    foldM (fun ix d => index_tree d d (at_ d) ix) (match dirs with [] => ["."] | _ => dirs end) no_index.
End making.

(** What reading the written index gives (C48) *)
Definition published (ix : made) : pindex := mkIndex (m_components ix) (map fst (m_packages ix)) (map fst (m_specs ix)).

(** uri.py 46-56 with urlparse(uri, "file") of Python 2.7: the path of an address that starts
    neither with a scheme nor with a host, i.e. without ':' and without '//' in front. *)
Definition url_path (uri : string) : string :=
  let up_to c s := hd "" (py_split c s) in up_to "?"%char (up_to "#"%char uri).
(** op/install.py 62-68: where the package is taken from *)
Definition download_from (indexuri packageURI : string) : res string :=
  abs <- absolute_path (url_path packageURI) ;;
  Ok (if abs : bool then packageURI else os_join (dirname indexuri) (url_path packageURI)).
