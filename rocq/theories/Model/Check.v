(** * Verifying installed files

    pisi/op/check.py 32-44, pisi/op/info.py 31-68 and pisi/cli/check.py 47-61.  Messages about
    single files are left out. *)
From Coq Require Import String Ascii ZArith List.
From stdpp Require Import gmap strings.
From Verif Require Import Model.Py Model.ItemByRepo Model.Package Model.Databases Model.InstallDB Model.System Model.Path Model.Fs Model.Ops.
Open Scope string_scope.

Section check.
  Context (h : host).

  (** op/info.py 41-60 with installed = True.  Line 48 imports pisi.metadata, a module that
      does not exist (it is pisi.data.metadata), so nothing after it is ever reached. *)
  Definition info_name_files (s : sys) (name : string) : res (list finfo) :=
    _ <- get_package (y_db s) name RInst ;; Err EImport.
  (** op/info.py 31-39 and 62-68, the files only *)
  Definition info_files (s : sys) (package : string) : res (list finfo) :=
    if py_endswith package ".pisi" then k <- h_open h package ;; Ok (k_files k)
    else info_name_files s package.

  (** op/check.py 35-43: the loop.  The root is always "/". *)
  Fixpoint check_files (f : fs) (files : list finfo) : res (list finfo) :=
    match files with
    | [] => Ok []
    | fi :: rest =>
        if truthy (f_hash fi) && negb (String.eqb (f_type fi) "config") && negb (islink f ("/" ++ f_path fi)) then
          match sha1_file (h_sha1 h) f ("/" ++ f_path fi) with
          | None => Err EError
          | Some x => bad <- check_files f rest ;; Ok (if bool_decide (f_hash fi = Some x) then bad else fi :: bad)
          end
        else check_files f rest
    end.
  (** op/check.py 32-44 *)
  Definition check (s : sys) (f : fs) (package : string) : res (list finfo) :=
    files <- info_files s package ;; check_files f files.

  (** cli/check.py 54-60: what is said about each package, and how it ends; [chk] stands for
      pisi.api.check *)
  Inductive said := Corrupt (pkg : string) | NotInstalled (pkg : string).
  Fixpoint check_packages (chk : string -> res (list finfo)) (s : sys) (pkgs : list string) : list said * res unit :=
    match pkgs with
    | [] => ([], Ok tt)
    | pkg :: rest =>
        if is_installed (y_inst s) pkg then
          match chk pkg with
          | Err e => ([], Err e)
          | Ok bad =>
              let r := check_packages chk s rest in
              (match bad with [] => r.1 | _ => Corrupt pkg :: r.1 end, r.2)
          end
        else let r := check_packages chk s rest in (NotInstalled pkg :: r.1, r.2)
    end.
  (** cli/check.py 47-61.  api.py 144-159 imports no name check, and nothing imports the module
      pisi.op.check, so pisi.api.check is an AttributeError. *)
  Definition check_command (s : sys) (args : list string) : list said * res unit :=
    check_packages (fun _ => Err EAttribute) s (match args with [] => list_installed (y_inst s) | _ => args end).
End check.
