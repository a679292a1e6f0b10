(** * Writing a package file: pisi/op/build.py 759-838, pisi/archive.py 132-150 and 183-206

    From the directory a source was installed into to a package file.  The list of files is
    that of Model/Contents.v; additional files have been copied already.

    Simplified: files.xml is read back as it was written, hard links are packed as files, sizes
    and modes are left out, and neither static nor debug packages are asked for. *)
From Coq Require Import String Ascii List.
From stdpp Require Import gmap strings.
From Verif Require Import Model.Py Model.Package Model.InstallDB Model.Path Model.Fs Model.Contents Model.Ops.
Import ListNotations.
Open Scope string_scope.

(** archive.py 183-206 (zip, where the member of a directory ends in a slash) and 132-150 with
    tarfile's add: the members made of the node [t], which is called [name].  A directory comes
    before what is in it.  The leading "install/" of the names is left out: build.py 834 takes
    it off, archive.py 244-247 does so when unpacking. *)
Fixpoint members (name : string) (t : Contents.node) : list (string * Fs.entry) :=
  match t with
  | Contents.NFile content => [(name, AFile content)]
  | Contents.NLink target _ => [(name, ALink target)]
  | Contents.NDir es => (name, ADir) :: flat_map (fun e => members (name +:+ "/" +:+ fst e) (snd e)) es
  end.

Section pack.
  Context (sha1 : string -> string) (install : string) (t : Contents.node).
  (** The order in which a Python dictionary is iterated *)
  Context (listed : gmap string fileinfo -> list (string * fileinfo)).

  (** build.py 631-636: writing a file without a type, which is mandatory in files.xml, is an
      error (data/files.py 24, exml/autoxml.py 445-460, 551-560 and 648-653) *)
  Definition file_entry (kv : string * fileinfo) : res finfo :=
    match gi_type (snd kv) with
    | None | Some "" => Err EError
    | Some type => Ok (mkFile (fst kv) type (gi_hash (snd kv)) (gi_permanent (snd kv)))
    end.
  (** build.py 818-823 and 829-834, one file *)
  Definition pack (fi : finfo) : res (list (string * Fs.entry)) :=
    match find_node t (names_of (f_path fi)) with
    | Some n => Ok (members (f_path fi) n)
    | None => Err EOS
    end.
  (** build.py 759-838: the package at place [i], with metadata [pkg] *)
  Definition build_package (pkgs : list (list pathinfo)) (i : nat) (pkg : package) (fmt : format) : res pkgfile :=
    d <- gen_files_xml sha1 install t pkgs i ;;
    files <- mapM file_entry (listed d) ;;
    data <- mapM pack files ;;
    Ok (mkPackfile pkg files (concat data) fmt).
End pack.
