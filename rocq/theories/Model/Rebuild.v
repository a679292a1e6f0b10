(** * Opening and rebuilding the database directory

    pisi/db/lockeddbshelve.py and pisi/op/rebuilddb.py. *)
From Coq Require Import String Ascii ZArith List Bool.
From stdpp Require Import gmap strings.
From Verif Require Import Model.Py Model.Version Model.Path.
Import ListNotations.
Open Scope string_scope.

(** ** Duplicate package directories *)

(** rebuilddb.py 99-112: [iv] is the dictionary i_version, [replica] the list *)
Fixpoint find_replicas (iv : gmap string string) (replica : list string) (listing : list string) : res (list string) :=
  match listing with
  | [] => Ok replica
  | pkg :: listing =>
      nv <- parse_package_name pkg ;;
      let name := fst nv in
      let ver := snd nv in
      match iv !! name with
      | Some old =>
          a <- parse_version ver ;;
          b <- parse_version old ;;
          if v_gt a b
          then find_replicas (<[ name := ver ]> iv) (replica ++ [name ++ "-" ++ old]) listing
          else find_replicas iv (replica ++ [name ++ "-" ++ ver]) listing
      | None => find_replicas (<[ name := ver ]> iv) replica listing
      end
  end.

(** One directory less.  util/fs.py 45-49: nothing happens if it is not there; that the
    removal of a directory is itself many steps is left out. *)
Definition clean_dir (pkg : string) (dirs : list string) : list string :=
  List.filter (fun d => negb (String.eqb d pkg)) dirs.

Section database.
  (** What a database file holds, and what a new one holds *)
  Variable D : Type.
  Variable blank : D.

  Record home := mkHome {
    h_stamps : gmap string string;  (* the version files in db_dir *)
    h_dbs : gmap string D;          (* the other files in db_dir *)
    h_dirs : list string;           (* os.listdir(lib_dir/package) *)
    h_index : list string;          (* os.listdir(index_dir), empty if it is not there *)
    h_readable : bool;              (* os.access(db_dir, R_OK) *)
    h_writable : bool;              (* os.access(db_dir, W_OK) *)
    h_held : bool                   (* another process holds dbenv.lock *)
  }.
  Definition set_stamps (h : home) s :=
    mkHome s (h_dbs h) (h_dirs h) (h_index h) (h_readable h) (h_writable h) (h_held h).
  Definition set_dbs (h : home) s :=
    mkHome (h_stamps h) s (h_dirs h) (h_index h) (h_readable h) (h_writable h) (h_held h).
  Definition set_dirs (h : home) s :=
    mkHome (h_stamps h) (h_dbs h) s (h_index h) (h_readable h) (h_writable h) (h_held h).

  (** A computation with every state of the disk it passes through: the states after each
      write, the result. *)
  Definition prog (A : Type) := home -> list home * res A.
  Definition final {A} (p : prog A) (h : home) : home := List.last (fst (p h)) h.
  Definition ret {A} (a : A) : prog A := fun _ => ([], Ok a).
  Definition raise {A} (e : exn) : prog A := fun _ => ([], Err e).
  Definition pure {A} (r : res A) : prog A := fun _ => ([], r).
  Definition ask {A} (f : home -> A) : prog A := fun h => ([], Ok (f h)).
  Definition change (f : home -> home) : prog unit := fun h => ([f h], Ok tt).
  Definition andthen {A B} (p : prog A) (q : A -> prog B) : prog B :=
    fun h =>
      match p h with
      | (t, Err e) => (t, Err e)
      | (t, Ok a) => let '(t', r) := q a (List.last t h) in ((t ++ t')%list, r)
      end.
  Notation "x <~ p ;; q" := (andthen p (fun x => q)) (at level 100, p at next level, right associativity).

  (** The first line of readlines(); None for an empty file *)
  Fixpoint first_line (s : string) : option string :=
    match s with
    | EmptyString => None
    | String c s' =>
        if Ascii.eqb c newline then Some (String c EmptyString)
        else match first_line s' with
             | Some l => Some (String c l)
             | None => Some (String c EmptyString)
             end
    end.

  (** lockeddbshelve.py 59-68 *)
  Definition write_stamp (versionfile ver : string) (write update firsttime : bool) : prog unit :=
    if write && (update || firsttime) then
      w <~ ask h_writable ;;
      if w : bool then
        _ <~ change (fun h => set_stamps h (<[ versionfile := "" ]> (h_stamps h))) ;;
        change (fun h => set_stamps h (<[ versionfile := ver ]> (h_stamps h)))
      else raise EError
    else raise EError.

  (** lockeddbshelve.py 40-68; [ls[0]] of an empty file is an IndexError *)
  Definition check_dbversion (versionfile ver : string) (write update : bool) : prog unit :=
    s <~ ask (fun h => h_stamps h !! versionfile) ;;
    match s with
    | Some content =>
        match first_line content with
        | None => raise EIndex
        | Some l =>
            currver <~ pure (parse_version l) ;;
            dbver <~ pure (parse_version ver) ;;
            if v_lt currver dbver then
              if negb update then raise EError else write_stamp versionfile ver write update false
            else if v_gt currver dbver then raise EError
            else if negb update then ret tt
            else write_stamp versionfile ver write update false
        end
    | None => write_stamp versionfile ver write update true
    end.

  (** lockeddbshelve.py 70-75 *)
  Definition lock_dbenv : prog unit :=
    held <~ ask h_held ;; if held : bool then raise EError else ret tt.

  (** pisi/__init__.py 17-18 *)
  Definition dbversion : string := "1.1.2".
  Definition filesdbversion : string := "1.1.2".

  (** lockeddbshelve.py 79-102; opening the environment itself is not modelled *)
  Definition init_dbenv (write writeversion : bool) : prog unit :=
    r <~ ask h_readable ;;
    if r : bool then
      _ <~ check_dbversion "dbversion" dbversion write writeversion ;;
      _ <~ check_dbversion "filesdbversion" filesdbversion write writeversion ;;
      if write then
        w <~ ask h_writable ;;
        if w : bool then lock_dbenv else raise EError
      else ret tt
    else raise EError.

  (** [for x in l: f(x)] *)
  Fixpoint each {A} (f : A -> prog unit) (l : list A) : prog unit :=
    match l with
    | [] => ret tt
    | x :: l => _ <~ f x ;; each f l
    end.

  (** rebuilddb.py 98-115 *)
  Definition clean_duplicates : prog unit :=
    dirs <~ ask h_dirs ;;
    replica <~ pure (find_replicas empty [] dirs) ;;
    each (fun pkg => change (fun h => set_dirs h (clean_dir pkg (h_dirs h)))) replica.

  (** The order of os.listdir(db_dir) *)
  Variable listing : gmap string D -> list string.

  (** rebuilddb.py 121-126 *)
  Definition doomed (files : bool) (mydb : string) : bool :=
    if py_endswith mydb ".bdb" then
      if py_startswith mydb "files" || py_startswith mydb "filesdbversion" then files else true
    else false.

  (** rebuilddb.py 117-129; a database that cannot be removed is not modelled *)
  Definition destroy (files : bool) : prog unit :=
    ls <~ ask (fun h => listing (h_dbs h)) ;;
    each (fun mydb => if doomed files mydb
                      then change (fun h => set_dbs h (delete mydb (h_dbs h))) else ret tt) ls.

  (** api.py 89-95 with db/repo.py 45, db/install.py 76-77, db/files.py 21, data/component.py 97,
      db/package.py 50-51, db/source.py 44-45, search/invertedindex.py 24 *)
  Definition databases : list string :=
    ["repo.bdb"; "install.bdb"; "configpending.bdb"; "files.bdb"; "component.bdb"; "package.bdb"; "revdep.bdb";
     "source.bdb"; "pkgtosrc.bdb"; "ii-summary-en.bdb"; "ii-summary-tr.bdb"; "ii-description-en.bdb"; "ii-description-tr.bdb"].

  (** lockeddbshelve.py 112-124, 144-145: opened for writing, a database that is not there is
      created *)
  Definition open_database (name : string) : prog unit :=
    change (fun h => match h_dbs h !! name with
                     | Some _ => h
                     | None => set_dbs h (<[ name := blank ]> (h_dbs h))
                     end).

  (** api.py 40-104 with database=True, write=True *)
  Definition init : prog unit :=
    _ <~ init_dbenv true false ;; each open_database databases.

  (** rebuilddb.py 131-136: pisi.api.resurrect_package does not exist *)
  Definition reload_packages : prog unit :=
    dirs <~ ask h_dirs ;;
    each (fun package_fn => if String.eqb package_fn "scripts" then ret tt else raise EAttribute) dirs.

  (** rebuilddb.py 142-144: reading the uri file and adding the repository *)
  Variable add_repo : string -> prog unit.

  (** rebuilddb.py 138-145: pisi.api.rebuild_repo does not exist *)
  Definition reload_indices : prog unit :=
    repos <~ ask h_index ;;
    each (fun repo => _ <~ add_repo repo ;; raise EAttribute) repos.

  (** rebuilddb.py 91-165.  [api.finalize] (closing what is open) changes nothing on the disk. *)
  Definition rebuild_db (files : bool) : prog unit :=
    files <~ (fun h => match snd (check_dbversion "filesdbversion" filesdbversion false false h) with
                       | Ok _ => ([], Ok files)
                       | Err _ => ([], Ok true)
                       end) ;;
    _ <~ init_dbenv true true ;;
    _ <~ destroy files ;;
    _ <~ init ;;
    _ <~ clean_duplicates ;;
    _ <~ reload_packages ;;
    reload_indices.
End database.
