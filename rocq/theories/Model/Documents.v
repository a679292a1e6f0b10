(** * Documentation in action scripts: pisi/actionsapi/pisitools.py, dohtml and doexes *)
From Coq Require Import String Ascii ZArith List Bool.
From stdpp Require Import gmap strings.
From Verif Require Import Model.Py Model.InstallDB Model.Path Model.Fs Model.Trace Model.Actions Model.Strip.
Import ListNotations.
Open Scope string_scope.
Open Scope prog_scope.

Section documents.
  Context (cwd root src tag : string) (ignore : bool)
          (expand : fs -> string -> list string)     (* glob.glob of a pattern, as in Model/Actions.v *)
          (runs : string -> fs -> bool)              (* whether install works *)
          (walked : fs -> string -> list string).    (* os.walk: the paths of what is not a directory, in the directory and those in it *)

  (** pisitools.py 79: allowed_extensions *)
  Definition allowed (p : string) : bool :=
    existsb (String.eqb (extension p)) [".png"; ".gif"; ".html"; ".htm"; ".jpg"; ".css"; ".js"].
  (** pisitools.py 80: disallowed_directories *)
  Definition disallowed (p : string) : bool := String.eqb (basename p) "CVS".
  (** pisitools.py 87-91: a directory.  The shell takes names without blanks and the like as they
      are; the command is not quoted here. *)
  Definition html_dir (d p : string) : prog fs unit :=
    f <~ ask (fun f => f) ;;
    each (fun q => if allowed q then _ <~ makedirs cwd ignore d ;; install_cmd cwd runs q d else ret tt) (walked f p).
  (** pisitools.py 84-91: one of the paths found *)
  Definition html_one (d p : string) : prog fs unit :=
    f <~ ask (fun f => f) ;;
    _ <~ (if e_isfile cwd f p && allowed p then install_cmd cwd runs p d else ret tt) ;;
    f <~ ask (fun f => f) ;;
    if e_isdir cwd f p && negb (disallowed p) then html_dir d p else ret tt.
  (** pisitools.py 71-91 *)
  Definition dohtml (sources : list string) : prog fs unit :=
    let d := join_path root ["usr/share/doc"; tag; "html"] in
    _ <~ makedirs cwd ignore d ;;
    each (fun s => f <~ ask (fun f => f) ;; each (html_one d) (glob cwd expand f s)) sources.

  (** pisitools.py 66-69 with pisitoolsfunctions.py 45-60: the list is handed on as one source, and
      a list has no lstrip (join_path of pisi/util) *)
  Definition doexes (sources : list string) (d : string) : prog fs unit :=
    if String.eqb (join_path2 root d) "" then raise EError
    else _ <~ makedirs cwd ignore (join_path2 root d) ;; raise EAttribute.
End documents.
