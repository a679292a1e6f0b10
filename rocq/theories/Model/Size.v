(** * Sizes: pisi/util/fs.py 58-80, pisi/op/build.py 573-584 and 621

    The tree is that of Model/Contents.v.  The size of a file is the number of its characters. *)
From Coq Require Import String Ascii List Bool Arith.
From stdpp Require Import gmap strings.
From Verif Require Import Model.Py Model.Path Model.Contents.
Import ListNotations.
Open Scope string_scope.

(** util/fs.py 76-79: os.walk puts links to directories among the directories, and does not enter
    them; [files] are the others *)
Fixpoint walk_size (t : node) : nat :=
  match t with
  | NDir es =>
      (fix go (es : list (string * node)) : nat :=
         match es with
         | [] => 0
         | (_, c) :: es =>
             match c with
             | NFile content => String.length content
             | NLink _ ToDir => 0
             | NLink target _ => String.length target
             | NDir _ => walk_size c
             end + go es
         end) es
  | _ => 0
  end.

Section install_dir.
  Context (install : string) (t : node).
  (** util/fs.py 58-80; a name that does not exist is walked over without finding anything *)
  Definition dir_size (path : string) : nat :=
    match node_at install t path with
    | Some (NFile content) => String.length content
    | Some (NLink target _) => String.length target
    | Some (NDir es) => walk_size (NDir es)
    | None => 0
    end.
  (** build.py 573-582 *)
  Definition installed_size (pinfos : list pathinfo) : nat :=
    fold_left (fun size path => fold_left (fun size p => size + dir_size p) (glob install t (join_path install [pi_path path])) size) pinfos 0.
  (** build.py 621: the size that is recorded with each file; [fpath] is the file's full name *)
  Definition recorded_size (key : string) : nat := dir_size (join_path install [key]).
End install_dir.
