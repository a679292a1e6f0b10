(** * Updating a repository: op/repo.py 53-97, data/index.py 53-84, file.py 209-217 *)
From Coq Require Import String Ascii ZArith List Bool.
From stdpp Require Import gmap strings.
From Verif Require Import Model.Py Model.Path Model.Version Model.Package Model.ComponentDB Model.Databases Model.Rebuild Model.Trace Model.Fetch.
Import ListNotations.
Open Scope string_scope.
Open Scope prog_scope.

(** The files and the databases of this machine *)
Record machine := mkMachine { m_files : files; m_dbs : dbs }.

(** What works on files leaves the databases alone *)
Definition on_files {A} (p : prog files A) : prog machine A :=
  fun s => let '(t, r) := p (m_files s) in (map (fun f => mkMachine f (m_dbs s)) t, r).

Section update.
  Context (server : string -> option string) (net : string -> files -> transfer) (parse : string -> uri) (mirrors : string -> list string)
    (authinfo : bool) (dir_writable writable : string -> bool) (sha1 : string -> string) (bunzip2 : string -> option string) (fuel : nat).
  Context (index_dir tmp_dir : string).
  (** autoxml.py read/decode: the index a text stands for; errors in it are an Error *)
  Context (read_index : string -> option pindex).
  (** os.system('gpg --verify ' + file) == 0 *)
  Context (gpg_verify : files -> string -> bool).

  (** os.path.join(ctx.config.index_dir(), repo): the names of repositories do not start with a
      slash, and index_dir does not end in one *)
  Definition repo_dir (repo : string) : string := index_dir ++ "/" ++ repo.

  (** index.py 53-55, autoxml.py read: the file is got, then parsed.  read() of a file that cannot be
      opened or parsed is an Error. *)
  Definition read_uri (u tmpdir : string) (force : bool) : prog files pindex :=
    path <~ download server net parse mirrors authinfo dir_writable writable sha1 bunzip2 fuel (parse u) tmpdir (negb force) (Some Auto) true ;;
    f <~ ask (fun f => f) ;;
    match f !! path with
    | None => raise EError
    | Some text => match read_index text with Some ix => ret ix | None => raise EError end
    end.

  (** index.py 58-73 with a repository given *)
  Definition read_uri_of_repo (u repo : string) (force : bool) : prog files pindex :=
    _ <~ write (join_path2 (repo_dir repo) "uri") "" ;;
    _ <~ write (join_path2 (repo_dir repo) "uri") u ;;
    read_uri u (repo_dir repo) force.

  (** file.py 209-217, index.py 82-84, op/repo.py 68-71: whatever goes wrong in getting the
      signature, NoSignatureFound is raised, and op/repo.py makes a warning of it *)
  Definition check_signature (u repo : string) : prog files unit :=
    got <~ try_except
      (p <~ download server net parse mirrors authinfo dir_writable writable sha1 bunzip2 fuel (parse (u ++ ".sig")) (repo_dir repo) false None false ;; ret (Some p))
      (fun _ => true) (ret None) ;;
    f <~ ask (fun f => f) ;;
    match got with
    | None => ret tt
    | Some p => if gpg_verify f p then ret tt else raise EError
    end.

  (** context.py 62-81: one transaction; what goes wrong in it comes out as a NameError *)
  Definition enter (repo : string) (ix : pindex) : prog machine unit :=
    s <~ ask (fun s => s) ;;
    match update_db (m_dbs s) ix repo with
    | Ok d => change (fun s => mkMachine (m_files s) d)
    | Err _ => raise EName
    end.

  Definition is_already (e : exn) : bool := match e with EAlreadyHave => true | _ => false end.

  (** op/repo.py 53-76 *)
  Definition update_repo (repo : string) (force : bool) : prog machine unit :=
    s <~ ask (fun s => s) ;;
    match rd_infos (db_repo (m_dbs s)) !! repo with
    | None => raise EError
    | Some u =>
        got <~ try_except
          (ix <~ on_files (read_uri_of_repo u repo false) ;; ret (Some ix))
          is_already
          (if force then ix <~ on_files (read_uri_of_repo u repo true) ;; ret (Some ix) else ret None) ;;
        match got with
        | None => ret tt
        | Some ix => _ <~ on_files (check_signature u repo) ;; enter repo ix
        end
    end.

  (** op/repo.py 78-97.  clean_dir: util/fs.py, everything below the directory goes. *)
  Definition clean_dir (dir : string) : prog files unit :=
    change (fun f : files => filter (fun pc => py_startswith (fst pc) (dir ++ "/") = false) f).
  Definition is_io_error (e : exn) : bool := match e with EOS => true | _ => false end.
  Definition rebuild_repo (repo : string) : prog machine unit :=
    s <~ ask (fun s => s) ;;
    match rd_infos (db_repo (m_dbs s)) !! repo with
    | None => raise EError
    | Some u =>
        let indexpath := join_path index_dir [repo; u_filename (parse u)] in
        let tmpdir := tmp_dir ++ "/index" in
        _ <~ on_files (clean_dir tmpdir) ;;
        got <~ try_except (ix <~ on_files (read_uri indexpath tmpdir true) ;; ret (Some ix)) is_io_error (ret None) ;;
        match got with
        | None => ret tt
        | Some ix => enter repo ix
        end
    end.
End update.
