(** * Writing a file to be published: pisi/file.py 147-207 in mode File.write *)
From Coq Require Import String Ascii ZArith List Bool.
From stdpp Require Import gmap strings.
From Verif Require Import Model.Py Model.Path Model.Rebuild Model.Trace Model.Fetch.
Import ListNotations.
Open Scope string_scope.
Open Scope prog_scope.

Section publish.
  Context (bzip2 : string -> string) (sha1 : string -> string).
  (** How writing a file goes: how much of it is on the disk at some moments, and whether all of it
      gets there *)
  Context (disk : files -> string -> list nat * bool).
  (** What gpg --detach-sig makes of a file, if it succeeds.  The name has no characters special to
      the shell. *)
  Context (gpg : files -> string -> option string).

  (** file(name, 'w').write(text), close.  The file is truncated first. *)
  Definition put (name text : string) : prog files unit :=
    f <~ ask (fun f => f) ;;
    _ <~ write name "" ;;
    _ <~ grow name "" text (fst (disk f name)) ;;
    if snd (disk f name) then write name text else raise EOS.
  (** file.py 189-199: the checksum of what is on the disk *)
  Definition put_sum (name : string) : prog files unit :=
    f <~ ask (fun f => f) ;; put (name ++ ".sha1sum") (sha1 (contents f name)).
  (** file.py 201-207 *)
  Definition sign_file (name : string) : prog files unit :=
    f <~ ask (fun f => f) ;;
    match gpg f name with None => raise EError | Some s => put (name ++ ".sig") s end.
  (** file.py 147-176, 182-207: File(uri, File.write, ...), the text, close().  File.auto is no
      compression here; File.gzip is an error after the text has been written.  The directory of the
      file is there. *)
  Definition publish (u : uri) (text : string) (sha1sum : bool) (compress : option method) (sign : bool) : prog files unit :=
    if is_remote_file u then raise EError
    else
      let localfile := u_uri u in
      _ <~ put localfile text ;;
      compressed_file <~ match compress with
                         | Some Bz2 =>
                             f <~ ask (fun f => f) ;;
                             _ <~ put (localfile ++ ".bz2") (bzip2 (contents f localfile)) ;;
                             ret (Some (localfile ++ ".bz2"))
                         | Some Gzip => raise EError
                         | _ => ret None
                         end ;;
      _ <~ (if sha1sum then
              _ <~ put_sum localfile ;;
              match compressed_file with Some c => put_sum c | None => ret tt end
            else ret tt) ;;
      if sign then
        _ <~ sign_file localfile ;;
        match compressed_file with Some c => sign_file c | None => ret tt end
      else ret tt.
End publish.
