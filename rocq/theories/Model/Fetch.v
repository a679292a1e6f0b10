(** * Fetching files

    pisi/fetcher.py, pisi/file.py *)
From Coq Require Import String Ascii ZArith List Bool.
From stdpp Require Import gmap strings.
From Verif Require Import Model.Py Model.Path Model.Rebuild Model.Trace.
Import ListNotations.
Open Scope string_scope.
Open Scope prog_scope.

(** The files on this machine: path -> contents.  Simplification: directories and links are
    left out; every path below is that of a regular file. *)
Notation files := (gmap string string).

(** pisi/uri.py 25-93: what urlparse makes of a URI *)
Record uri := mkUri {
  u_uri : string;
  u_scheme : string;
  u_path : string;
  u_filename : string
}.
Definition is_local_file (u : uri) : bool := String.eqb (u_scheme u) "file".
Definition is_remote_file (u : uri) : bool := negb (is_local_file u).
Definition is_mirror (u : uri) : bool := py_startswith (u_uri u) "mirrors://".

(** How one transfer over the network goes: whether urlopen reaches the server, whether it
    announces a length, the numbers of bytes that have reached the disk at some moments, and
    whether the transfer ends normally *)
Record transfer := mkTransfer {
  t_reachable : bool;
  t_length : bool;
  t_sizes : list nat;
  t_complete : bool
}.

Section fetcher.
  Variable server : string -> option string.       (* URI -> the file there *)
  Variable net : string -> files -> transfer.      (* how fetching this URI goes *)
  Variable parse : string -> uri.                  (* URI(text), urlparse *)
  Variable mirrors : string -> list string.        (* Mirrors().get_mirrors(name), [] for None *)
  Variable authinfo : bool.                        (* ctx.config.get_option("authinfo") is set *)
  Variable dir_writable : string -> bool.          (* os.access(dir, W_OK) *)
  Variable writable : string -> bool.              (* os.access(file, W_OK), for an existing file *)
  Variable sha1 : string -> string.
  Variable bunzip2 : string -> option string.      (* bz2.BZ2File(...).read() *)

  Definition exists_ (f : files) (p : string) : bool := bool_decide (is_Some (f !! p)).
  Definition contents (f : files) (p : string) : string := default "" (f !! p).
  Definition write (p c : string) : prog files unit := change (fun f : files => <[ p := c ]> f).
  Definition remove (p : string) : prog files unit := change (fun f : files => delete p f).

  (** [dest] gets [base] followed by more and more of [rest] *)
  Definition grow (dest base rest : string) (sizes : list nat) : prog files unit :=
    each (fun n => write dest (base ++ py_take n rest)) sizes.

  (** fetcher.py 227-236, 183-225: the file is truncated first.  Reading may fail half way. *)
  Definition fetchLocalFile (u : uri) (archive_file : string) : prog files unit :=
    f <~ ask (fun f => f) ;;
    match f !! u_path u with
    | None => raise EFetch
    | Some c =>
        _ <~ write archive_file "" ;;
        _ <~ grow archive_file "" c (t_sizes (net (u_uri u) f)) ;;
        if t_complete (net (u_uri u) f) then write archive_file c else raise EOS
    end.

  (** fetcher.py 295-316; true is 'simple' *)
  Definition test_range_support (u : uri) (partial_file : string) : prog files bool :=
    f <~ ask (fun f => f) ;;
    if exists_ f partial_file then
      let t := net (u_uri u) f in
      if t_reachable t && t_length t then ret true
      else _ <~ remove partial_file ;; ret false
    else ret false.

  (** fetcher.py 238-252 and urlgrabber.urlgrab: with reget='simple' the rest of the file is
      appended to what is there, otherwise the file is written anew.  A transfer that ends
      normally has delivered everything.  fetcher.py 254-266: with authinfo the name base64 is not
      defined. *)
  Definition fetchRemoteFile (u : uri) (archive_file : string) : prog files unit :=
    if authinfo && (String.eqb (u_scheme u) "http" || String.eqb (u_scheme u) "https" || String.eqb (u_scheme u) "ftp")
    then raise EName
    else
      reget <~ test_range_support u archive_file ;;
      f <~ ask (fun f => f) ;;
      let t := net (u_uri u) f in
      match server (u_uri u) with
      | None => raise EFetch
      | Some c =>
          let base := if reget : bool then contents f archive_file else "" in
          let rest := py_drop (String.length base) c in
          _ <~ (if reget : bool then ret tt else write archive_file "") ;;
          _ <~ grow archive_file base rest (t_sizes t) ;;
          if t_complete t then write archive_file (base ++ rest) else raise EFetch
      end.

  (** fetcher.py 372-392: the mirror's URL is fetched to the same directory *)
  Definition mirror_name (u : uri) : string :=
    match py_split "/" (py_drop (String.length "mirrors://") (u_uri u)) with [] => "" | x :: _ => x end.
  Definition mirror_path (u : uri) : string :=
    match py_split "/" (py_drop (String.length "mirrors://") (u_uri u)) with [] => "" | _ :: l => py_join "/" l end.
  Definition is_fetch_error (e : exn) : bool := match e with EFetch => true | _ => false end.
  Fixpoint try_mirrors (fetch_url : string -> prog files unit) (archive : string) (l : list string) : prog files unit :=
    match l with
    | [] => raise EFetch
    | m :: l =>
        try_except (fetch_url (join_path2 m archive)) is_fetch_error (try_mirrors fetch_url archive l)
    end.

  (** fetcher.py 148-181: the destination directory, the destination, then the fetch proper.  The
      loop of mirrors that lead to mirrors is cut by [fuel]. *)
  Fixpoint fetch (fuel : nat) (u : uri) (destdir : string) : prog files unit :=
    match fuel with
    | O => raise EFuel
    | S fuel =>
        if String.eqb (u_filename u) "" then raise EFetch
        else if negb (dir_writable destdir) then raise EFetch
        else
          let archive_file := join_path2 destdir (u_filename u) in
          f <~ ask (fun f => f) ;;
          if exists_ f archive_file && negb (writable archive_file) then raise EFetch
          else
            let partial_file := archive_file ++ ".part" in
            if is_mirror u then
              match mirrors (mirror_name u) with
              | [] => raise EName
              | l => try_mirrors (fun url => fetch fuel (parse url) destdir) (mirror_path u) l
              end
            else
              _ <~ (if is_local_file u then fetchLocalFile u partial_file else fetchRemoteFile u partial_file) ;;
              g <~ ask (fun g => g) ;;
              if String.eqb (contents g partial_file) "" then _ <~ remove partial_file ;; raise EFetch
              else change (fun g : files => <[ archive_file := contents g partial_file ]> (delete partial_file g))
    end.

  (** file.py 71-93: File.bz2 = 0, File.gzip = 1, File.auto = 2 *)
  Inductive method := Bz2 | Gzip | Auto.
  Definition choose_method (filename : string) (compress : option method) : option method :=
    match compress with
    | Some Auto => if py_endswith filename ".bz2" then Some Bz2
                   else if py_endswith filename ".gz" then Some Gzip else None
    | m => m
    end.
  (** file.py 84-93 *)
  Definition decompress (localfile : string) (compress : option method) : prog files string :=
    match choose_method localfile compress with
    | Some Bz2 =>
        let out := py_take (String.length localfile - 4) localfile in
        f <~ ask (fun f => f) ;;
        _ <~ write out "" ;;
        match bunzip2 (contents f localfile) with
        | None => raise EOS
        | Some c => _ <~ write out c ;; ret out
        end
    | Some Gzip => raise EError
    | _ => ret localfile
    end.

  (** file.py 109-138: getting the file, once the published checksum is known.  shutil.copy is
      not atomic. *)
  Definition copy (src dst : string) : prog files unit :=
    f <~ ask (fun f => f) ;;
    match f !! src with
    | None => raise EOS
    | Some c => _ <~ write dst "" ;; write dst c
    end.
  Definition obtain (fuel : nat) (u : uri) (transfer_dir : string) (newsha1 : option string) (copylocal : bool) : prog files string :=
    if is_remote_file u || copylocal then
      let localfile := join_path2 transfer_dir (u_filename u) in
      f <~ ask (fun f => f) ;;
      if match newsha1 with
         | Some h => exists_ f localfile && String.eqb h (sha1 (contents f localfile))
         | None => false
         end
      then raise EAlreadyHave
      else if is_remote_file u then _ <~ fetch fuel u transfer_dir ;; ret localfile
      else _ <~ copy (u_uri u) localfile ;; ret localfile
    else
      f <~ ask (fun f => f) ;;
      if negb (exists_ f (u_uri u)) then raise EOS
      else if writable (u_uri u) then ret (u_uri u)
      else
        let localfile := join_path2 transfer_dir (basename (u_uri u)) in
        _ <~ copy (u_uri u) localfile ;; ret localfile.

  (** file.py 95-145.  [readlines()[0]] keeps the line end, and is an IndexError for an empty
      file; sha1_file of a file that is not there is a FileError. *)
  Definition download_with (fuel : nat) (u : uri) (transfer_dir : string) (newsha1 : option string) (compress : option method) (copylocal : bool) : prog files string :=
    localfile <~ obtain fuel u transfer_dir newsha1 copylocal ;;
    f <~ ask (fun f => f) ;;
    match newsha1 with
    | Some h =>
        match f !! localfile with
        | None => raise EError
        | Some c => if negb (String.eqb (sha1 c) h) then raise EError else decompress localfile compress
        end
    | None => decompress localfile compress
    end.
  Definition download (fuel : nat) (u : uri) (transfer_dir : string) (sha1sum : bool) (compress : option method) (copylocal : bool) : prog files string :=
    if sha1sum then
      sha1filename <~ download_with fuel (parse (u_uri u ++ ".sha1sum")) transfer_dir None None false ;;
      f <~ ask (fun f => f) ;;
      match f !! sha1filename with
      | None => raise EOS
      | Some text =>
          match first_line text with
          | None => raise EIndex
          | Some newsha1 => download_with fuel u transfer_dir (Some newsha1) compress copylocal
          end
      end
    else download_with fuel u transfer_dir None compress copylocal.
End fetcher.
