(** * The database of installed packages and the database of files

    pisi/db/install.py, pisi/db/files.py.  A procedure run inside a transaction returns
    either the new value or an exception, and then nothing has changed (C36). *)
From Coq Require Import String Ascii ZArith List.
From stdpp Require Import gmap strings.
From Verif Require Import Model.Py.
Open Scope string_scope.

(** db/install.py 58-59: the states 'i', 'ip' and 'r'.  The fourth, 'p', is never set
    anywhere in pisi. *)
Inductive istate := StI | StIP | StR.
Global Instance istate_eq_dec : EqDecision istate.
Proof. solve_decision. Defined.

(** db/install.py 37-48.  [time] is left out: it is only displayed. *)
Record iinfo := mkInfo {
  i_state : istate;
  i_version : string;
  i_release : string;
  i_build : option Z;
  i_distribution : string
}.
Global Instance iinfo_eq_dec : EqDecision iinfo.
Proof. solve_decision. Defined.

(** db/install.py 74-77: the shelves 'install' and 'configpending'. *)
Record installdb := mkInst {
  id_d : gmap string iinfo;
  id_dp : gmap string bool
}.
Definition empty_inst : installdb := mkInst ∅ ∅.

(** state=='i' or state=='ip' (db/install.py 110, 119) *)
Definition counts_installed (i : iinfo) : bool :=
  match i_state i with StI | StIP => true | StR => false end.

(** db/install.py 99-103 *)
Definition is_recorded (db : installdb) (pkg : string) : bool :=
  match id_d db !! pkg with Some _ => true | None => false end.

(** db/install.py 105-113 *)
Definition is_installed (db : installdb) (pkg : string) : bool :=
  match id_d db !! pkg with Some info => counts_installed info | None => false end.

(** db/install.py 115-122 *)
Definition list_installed (db : installdb) : list string :=
  map fst (List.filter (fun pi : string * iinfo => counts_installed pi.2) (map_to_list (id_d db))).

(** db/install.py 124-130: the dictionary as an association list; [self.d[pkg]] of a
    package without record is a KeyError. *)
Definition list_pending (db : installdb) : res (list (string * iinfo)) :=
  mapM (fun px : string * bool =>
          match id_d db !! px.1 with Some info => Ok (px.1, info) | None => Err EKey end)
       (map_to_list (id_dp db)).

(** db/install.py 132-134 *)
Definition get_info (db : installdb) (pkg : string) : res iinfo :=
  match id_d db !! pkg with Some info => Ok info | None => Err EKey end.

(** db/install.py 136-139 *)
Definition get_version (db : installdb) (pkg : string) : res (string * string * option Z) :=
  info <- get_info db pkg ;; Ok (i_version info, i_release info, i_build info).

(** db/install.py 141-147 *)
Definition is_removed (db : installdb) (pkg : string) : bool :=
  match id_d db !! pkg with
  | Some info => match i_state info with StR => true | _ => false end
  | None => false
  end.

(** db/install.py 149-174 *)
Definition db_install (db : installdb) (pkg version release : string) (build : option Z)
    (distro : string) (config_later : bool) : res installdb :=
  if is_installed db pkg then Err EError
  else
    let dp := if config_later then <[pkg := true]> (id_dp db) else id_dp db in
    let state := if config_later then StIP else StI in
    Ok (mkInst (<[pkg := mkInfo state version release build distro]> (id_d db)) dp).

Definition with_state (st : istate) (i : iinfo) : iinfo :=
  mkInfo st (i_version i) (i_release i) (i_build i) (i_distribution i).

(** db/install.py 176-185.  [self.d.get(pkg, txn)] of a package without record returns the
    transaction itself, which cannot be stored; deleting a missing key of 'configpending'
    is a DBNotFoundError. *)
Definition clear_pending (db : installdb) (pkg : string) : res installdb :=
  match id_d db !! pkg with
  | None => Err EType
  | Some info =>
      info' <- (if is_installed db pkg then
                  match i_state info with StIP => Ok (with_state StI info) | _ => Err EAssert end
                else Ok info) ;;
      match id_dp db !! pkg with
      | None => Err EDB
      | Some _ => Ok (mkInst (<[pkg := info']> (id_d db)) (delete pkg (id_dp db)))
      end
  end.

(** db/install.py 187-193.  Without a record [info] is the transaction object, which has
    no attribute to set. *)
Definition db_remove (db : installdb) (pkg : string) : res installdb :=
  match id_d db !! pkg with
  | None => Err EAttribute
  | Some info => Ok (mkInst (<[pkg := with_state StR info]> (id_d db)) (id_dp db))
  end.

(** db/install.py 195-200 *)
Definition db_purge (db : installdb) (pkg : string) : res installdb :=
  Ok (mkInst (delete pkg (id_d db)) (id_dp db)).

(** ** FilesDB *)

(** data/files.py 25-35: one entry of a package's file list.  Uid, gid, mode and size are
    left out: no modelled function looks at them. *)
Record finfo := mkFile {
  f_path : string;
  f_type : string;
  f_hash : option string;
  f_permanent : option string
}.
Global Instance finfo_eq_dec : EqDecision finfo.
Proof. solve_decision. Defined.

(** db/files.py: path -> (package, entry).  The stored entry lacks its path, and get_file
    puts it back; the model keeps the path in the entry. *)
Notation filesdb := (gmap string (string * finfo)).

(** db/files.py 31-38 *)
Definition add_files (db : filesdb) (pkg : string) (files : list finfo) : filesdb :=
  fold_left (fun db x => <[f_path x := (pkg, x)]> db) files db.

(** db/files.py 40-45 *)
Definition remove_files (db : filesdb) (files : list finfo) : filesdb :=
  fold_left (fun db x => delete (f_path x) db) files db.

(** db/files.py 47-48 *)
Definition has_file (db : filesdb) (path : string) : bool :=
  match db !! path with Some _ => true | None => false end.

(** db/files.py 50-59 *)
Definition get_file (db : filesdb) (path : string) : option (string * finfo) := db !! path.

(** db/files.py 61-76, with [fnmatch.fnmatch] a parameter *)
Definition match_files (fnmatch : string -> string -> bool) (db : filesdb) (glob : string)
  : list (string * finfo) :=
  map snd (List.filter (fun kv : string * (string * finfo) => fnmatch kv.1 glob) (map_to_list db)).
