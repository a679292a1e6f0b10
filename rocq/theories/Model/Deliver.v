(** * Files put into a package and taken out of it, with their permissions *)
From Coq Require Import String ZArith NArith List Bool.
From stdpp Require Import gmap strings.
From Verif Require Import Model.Py Model.Path Model.InstallDB Model.Fs Model.Trace Model.Actions Model.Index Model.Archive.
Import ListNotations.
Open Scope string_scope.

Section deliver.
  Variable order : string -> list string -> list string.        (* the order os.listdir gives *)
  (** op/build.py 824-836, format 1.1, in the directory [cwd] of the package being built: the
      members of install.tar for the paths of files.xml.  The names in the archive lose the
      characters of "install" at their beginning, which leaves the slash that follows.  (The
      directory is debug for debug packages; compression is left out.) *)
  Definition pack_tar (cwd : string) (n : nat) (d : disk) (paths : list string) : res (list tmember) :=
    ms <- Py.mapM (fun p => let arc := os_join "install" p in tar_add_to_archive cwd order n d arc (py_lstrip "install" arc)) paths ;;
    Ok (concat ms).
  (** op/build.py 817-823, format 1.0; [control] are the members for metadata.xml, files.xml and
      comar scripts, added before (799-810) *)
  Definition pack_zip (cwd : string) (n : nat) (d : disk) (control : list member) (paths : list string) : res (list member) :=
    ms <- Py.mapM (fun p => let arc := os_join "install" p in add_to_archive cwd order n d arc arc) paths ;;
    Ok (control ++ concat ms)%list.
End deliver.

(** data/package.py 119-125, called by op/install.py 292: install.tar is taken out of the package to
    the directory for temporary files and unpacked (the branch of archive.py 119-124 for
    it is taken); without it the directory install of the package is. *)
Definition deliver_tar (cwd : string) (umask : N) (ms : list tmember) (dest : string) : prog disk unit :=
  tar_unpack_dir cwd umask true ms dest.
Definition deliver_zip (cwd : string) (umask : N) (ms : list member) (dest : string) : prog disk unit :=
  unpack_dir_flat cwd umask "install" ms dest.
