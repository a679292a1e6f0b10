(** * Source archives: pisi/sourcearchive.py, pisi/archive.py

    What is done with the file; the work directory is in Model/Build.v. *)
From Coq Require Import String Ascii ZArith List Bool.
From stdpp Require Import gmap strings.
From Verif Require Import Model.Py Model.Path Model.Trace Model.Fetch.
Import ListNotations.
Open Scope string_scope.
Open Scope prog_scope.

(** constants.py 40 *)
Definition lzma_suffix : string := ".lzma".
(** archive.py 308-320 *)
Definition handlers : list string := ["targz"; "tarbz2"; "tarlzma"; "tar"; "zip"; "binary"].

Section source.
  Variable server : string -> option string.
  Variable net : string -> files -> transfer.
  Variable parse : string -> uri.
  Variable mirrors : string -> list string.
  Variable authinfo : bool.
  Variable dir_writable : string -> bool.
  Variable writable : string -> bool.
  Variable readable : string -> bool.              (* os.access(file, R_OK), for an existing file *)
  Variable sha1 : string -> string.
  Variable unlzma : string -> option string.       (* what lzma -d makes of a file, None: it fails *)

  (** sourcearchive.py 41: [util.join_path(archives_dir, url.filename())] *)
  Definition archive_path (u : uri) (archives_dir : string) : string := join_path2 archives_dir (u_filename u).
  (** sourcearchive.py 52-62 *)
  Definition is_cached (f : files) (path sum : string) : bool :=
    exists_ f path && readable path && String.eqb (sha1 (contents f path)) sum.
  (** sourcearchive.py 44-50 *)
  Definition fetch_source (fuel : nat) (u : uri) (archives_dir sum : string) : prog files unit :=
    f <~ ask (fun f => f) ;;
    if is_cached f (archive_path u archives_dir) sum then ret tt
    else fetch server net parse mirrors authinfo dir_writable writable fuel u archives_dir.

  (** archive.py 303-324, 79-103 and the other [unpack]s: what is read as the archive.  "lzma -d"
      takes names that end in .lzma (its other suffix .tlz is left out), writes the file without
      the suffix and removes the one with it; the name opened then is [rstrip(".lzma")]. *)
  Definition open_archive (ty path : string) : prog files string :=
    if negb (existsb (String.eqb ty) handlers) then raise EError
    else
      f <~ ask (fun f => f) ;;
      match f !! path with
      | None => raise EOS
      | Some c =>
          if String.eqb ty "tarlzma" then
            if py_endswith path lzma_suffix then
              match unlzma c with
              | None => raise EError
              | Some d =>
                  _ <~ change (fun f : files => <[ py_take (String.length path - String.length lzma_suffix) path := d ]> (delete path f)) ;;
                  g <~ ask (fun g => g) ;;
                  match g !! py_rstrip lzma_suffix path with
                  | None => raise EOS
                  | Some d => ret d
                  end
              end
            else raise EError
          else ret c
      end.
  (** sourcearchive.py 64-77; sha1_file of a file that cannot be read is a FileError *)
  Definition unpack_source (u : uri) (archives_dir ty sum : string) : prog files string :=
    f <~ ask (fun f => f) ;;
    match f !! archive_path u archives_dir with
    | None => raise EError
    | Some c => if String.eqb (sha1 c) sum then open_archive ty (archive_path u archives_dir) else raise EError
    end.
End source.
