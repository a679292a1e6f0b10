(** * Emptying the caches: pisi/api.py 138-141, pisi/config.py 82-85, 93-97 and 102-112,
    pisi/util/fs.py 45-49

    Paths, os and shutil are those of Model/Actions.v; check_dir is that of Model/Archive.v.
    Simplified: shutil.rmtree removes its tree at once. *)
From Coq Require Import String List Bool.
From stdpp Require Import gmap strings.
From Verif Require Import Model.Py Model.InstallDB Model.Path Model.Fs Model.Trace Model.Actions Model.Archive.
Import ListNotations.
Open Scope string_scope.
Open Scope prog_scope.

Section cache.
  Variable cwd : string.                              (* os.getcwd() *)
  Variable dest : string.                             (* config.dest_dir() *)
  Variables packages archives tmp : string.           (* values.dirs.packages_dir, archives_dir, tmp_dir *)
  Variable user : option string.                      (* the variable USER of the environment *)
  Variable writable : string -> bool.                 (* os.access(p, os.W_OK) *)

  (** config.py 82-85 *)
  Definition subdir (path : string) : prog fs string :=
    let dir := join_path2 dest path in
    _ <~ check_dir cwd dir ;;
    ret dir.

  (** config.py 104-107 *)
  Definition userdir : string := match user with Some u => "/tmp/pisi-" ++ u | None => "/tmp/pisi-root" end.

  (** config.py 102-112 *)
  Definition tmp_dir : prog fs string :=
    sysdir <~ subdir tmp ;;
    ret (if writable sysdir then sysdir else userdir).

  (** util/fs.py 45-49 *)
  Definition clean_dir (path : string) : prog fs unit :=
    f <~ ask (fun f => f) ;;
    if e_exists cwd f path then shutil_rmtree cwd path else ret tt.

  (** api.py 138-141 *)
  Definition delete_cache : prog fs unit :=
    p <~ subdir packages ;;
    _ <~ clean_dir p ;;
    a <~ subdir archives ;;
    _ <~ clean_dir a ;;
    t <~ tmp_dir ;;
    clean_dir t.
End cache.
