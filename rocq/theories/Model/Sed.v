(** * Editing files in action scripts: pisi/actionsapi/pisitools.py, dosed, with Python's fileinput *)
From Coq Require Import String Ascii ZArith List Bool.
From stdpp Require Import gmap strings.
From Verif Require Import Model.Py Model.InstallDB Model.Path Model.Fs Model.Trace Model.Actions Model.Pipes.
Import ListNotations.
Open Scope string_scope.
Open Scope prog_scope.

Section sed.
  Context (cwd : string)
          (expand : fs -> string -> list string)     (* glob.glob of a pattern, as in Model/Actions.v *)
          (sub : string -> option string).           (* re.sub(findPattern, replacePattern, line); None: re.error *)

  (** pisitools.py 190-193: the lines of the text, each replaced *)
  Fixpoint sub_lines (l : list string) : option (list string) :=
    match l with
    | [] => Some []
    | x :: l => match sub x, sub_lines l with Some y, Some r => Some (y :: r) | _, _ => None end
    end.
  (** fileinput.input(p, inplace = 1), readline and nextfile, around pisitools.py 190-193: what is
      at p.bak is unlinked (an error of that is ignored), p is renamed to p.bak, p.bak is opened,
      p is created and written, p.bak is unlinked.  What is written appears at once at the end;
      after an error of re.sub, nothing has appeared (Python's buffer may have). *)
  Definition edit (p : string) : prog fs unit :=
    let bak := p ++ ".bak" in
    _ <~ try_except (os_unlink cwd bak) is_os_error (ret tt) ;;
    _ <~ os_rename cwd p bak ;;
    f <~ ask (fun f => f) ;;
    match os_stat cwd f bak with
    | Some (NFile c) =>
        _ <~ os_write cwd p "" ;;
        match sub_lines (Pipes.cat c) with
        | Some out =>
            _ <~ os_write cwd p (Pipes.join out) ;;
            try_except (os_unlink cwd bak) is_os_error (ret tt)
        | None => raise EValue
        end
    | _ => raise EOS
    end.
  (** pisitools.py 181-196; can_access_file: shelltools.py 37-39 *)
  Definition dosed (s : string) : prog fs unit :=
    f <~ ask (fun f => f) ;;
    each (fun p => f <~ ask (fun f => f) ;; if e_exists cwd f p then edit p else raise EError) (glob cwd expand f s).
End sed.
