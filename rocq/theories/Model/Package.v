(** * The package and source records the databases store

    pisi/data/metadata.py 35-56 and pisi/data/specfile.py 158-186.  Simplification: only
    the fields other modelled code looks at. [p_version]/[p_release] are what decode_hook
    (metadata.py 54-56) copies from the newest history entry. *)
From Coq Require Import String Ascii ZArith List.
From stdpp Require Import gmap strings.
From Verif Require Import Model.Py Model.Dependency.
Open Scope string_scope.

Record package := mkPackage {
  p_name : string;
  p_version : string;
  p_release : string;
  p_build : option Z;
  p_deps : list dependency;              (* packageDependencies *)
  p_compdeps : list string;              (* componentDependencies *)
  p_conflicts : list string;
  p_partOf : option string;
  p_summary : list (string * string);    (* language -> text *)
  p_description : list (string * string);
  p_comar : list (string * string);      (* providesComar: (om, script) *)
  p_security : bool;                     (* newest history entry has type "security" *)
  p_distribution : string
}.

(** specfile.py 188-191: [ctx.componentdb.get_component[x]] subscripts a method, a
    TypeError as soon as there is a component dependency. *)
Definition runtimeDependencies (p : package) : res (list dependency) :=
  match p_compdeps p with [] => Ok (p_deps p) | _ => Err EType end.

(** pisi/data/specfile.py Source/SpecFile, as far as the source database needs them. *)
Record spec := mkSpec {
  sp_name : string;
  sp_version : string;
  sp_release : string;
  sp_partOf : option string;
  sp_buildDeps : list dependency;
  sp_packages : list package
}.

(** pisi/data/component.py 41-77 *)
Record component := mkComponent {
  c_name : string;
  c_info : string;            (* local name, summary, description: opaque *)
  c_packages : list string;
  c_sources : list string
}.
(** component.py 157: [Component(name = ...)] *)
Definition new_component (name : string) : component := mkComponent name "" [] [].
