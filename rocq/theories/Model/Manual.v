(** * Documentation under another name in action scripts: pisi/actionsapi/pisitools.py, newdoc and
      newman (doman is in Model/Actions.v) *)
From Coq Require Import String Ascii ZArith List Bool.
From stdpp Require Import gmap strings.
From Verif Require Import Model.Py Model.InstallDB Model.Path Model.Fs Model.Trace Model.Actions.
Import ListNotations.
Open Scope string_scope.
Open Scope prog_scope.

Section manual.
  Context (cwd root src tag : string) (ignore : bool)
          (expand : fs -> string -> list string)     (* glob.glob of a pattern, as in Model/Actions.v *)
          (runs : string -> fs -> bool).             (* whether install works *)

  (** shelltools.py 126-149, as in Model/Actions.v, but here shutil.copy refuses to copy a file to
      itself: shutil.Error, which is no IOError, is [EValue] *)
  Definition onto_itself (f : fs) (p b : string) : bool :=
    e_isfile cwd f p && negb (e_islink cwd f p) &&
    bool_decide (locate cwd true f p = locate cwd true f (if e_isdir cwd f b then child b (basename p) else b)).
  Definition copy_apart (a b : string) : prog fs unit :=
    f <~ ask (fun f => f) ;;
    each (fun p => f <~ ask (fun f => f) ;; if onto_itself f p b then raise EValue else copy_one cwd ignore p b) (glob cwd expand f a).
  (** pisitools.py 226-233 *)
  Definition newdoc (s d : string) : prog fs unit :=
    _ <~ copy_apart s (basename d) ;;
    insert_into cwd src ignore expand runs (join_path root ["usr/share/doc"; tag; dirname d]) [basename d].
  (** pisitools.py 235-239 *)
  Definition newman (s d : string) : prog fs unit :=
    _ <~ copy_apart s d ;; doman cwd root ignore expand runs [d].
End manual.
