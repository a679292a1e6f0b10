(** * Files no package collects: pisi/op/build.py 347-371 and 844-852

    Simplified as in Model.Contents: names that lead through a link are taken not to exist. *)
From Coq Require Import String Ascii List Bool Arith.
From stdpp Require Import gmap strings.
From Verif Require Import Model.Py Model.Path Model.Contents.
Import ListNotations.
Open Scope string_scope.

Section install_dir.
  Context (install : string) (t : node).

  (** build.py 354-357 *)
  Definition all_paths_in_packages (pkgs : list (list pathinfo)) : list string :=
    flat_map (flat_map (fun path => glob install t (install ++ pi_path path))) pkgs.
  (** build.py 362-365: [not fpath.find(path)], that is, found at the very beginning *)
  Definition already_in_package (paths : list string) (fpath : string) : bool :=
    existsb (fun path => py_startswith fpath path) paths.
  (** build.py 359-361: the files of each directory, the directory before those in it.  Links
      to directories are among the [dirs] of os.walk, which does not enter them. *)
  Fixpoint walk_files (root : string) (t : node) {struct t} : list string :=
    match t with
    | NDir es =>
        (flat_map (fun e => match snd e with
                            | NDir _ | NLink _ ToDir => []
                            | _ => [join_path root [fst e]]
                            end) es ++
         (fix dirs (es : list (string * node)) : list string :=
            match es with
            | [] => []
            | (n, c) :: es => (match c with NDir _ => walk_files (join_path root [n]) c | _ => [] end ++ dirs es)%list
            end) es)%list
    | _ => []
    end.
  (** build.py 347-371 *)
  Definition get_abandoned_files (pkgs : list (list pathinfo)) : list string :=
    let paths := all_paths_in_packages pkgs in
    List.filter (fun fpath => negb (already_in_package paths fpath)) (walk_files install t).
End install_dir.
