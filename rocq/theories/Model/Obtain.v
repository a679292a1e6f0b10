(** * Getting hold of a package: pisi/data/package.py 38-92, util/pkg.py 88-90 *)
From Coq Require Import String Ascii ZArith List Bool.
From stdpp Require Import gmap strings.
From Verif Require Import Model.Py Model.Path Model.Rebuild Model.Trace Model.Fetch.
Import ListNotations.
Open Scope string_scope.
Open Scope prog_scope.

(** constants.py 37 *)
Definition xdelta_suffix : string := ".xdelta".

Section obtain.
  (** As in Model/Fetch.v *)
  Context (server : string -> option string) (net : string -> files -> transfer) (parse : string -> uri) (mirrors : string -> list string)
    (authinfo : bool) (dir_writable writable : string -> bool).
  (** What the command xdelta makes of a delta and an old file, if anything; how much of it has
      reached the disk at some moments, and whether the command ends with success *)
  Context (patch : string -> string -> option string) (progress : files -> list nat * bool).
  (** ctx.installdb: the version, release and build of an installed package *)
  Context (installed : string -> option (string * string * option Z)).
  (** ctx.config.values.general.xdelta is true (Model/Config.v), ctx.config.packages_dir() *)
  Context (xdelta : bool) (dest : string).
  (** A module named [fetcher] is on the path of Python, or in pisi/data.  There is none: the one
      of the program is pisi.fetcher. *)
  Context (fetcher : bool) (fuel : nat).

  (** util/pkg.py 88-90.  The names have no characters special to the shell. *)
  Definition generate_pisi_file (patch_file from_file to_file : string) : prog files unit :=
    f <~ ask (fun f => f) ;;
    match patch (contents f patch_file) (contents f from_file) with
    | None => raise EError
    | Some c =>
        _ <~ write to_file "" ;;
        _ <~ grow to_file "" c (fst (progress f)) ;;
        if snd (progress f) then write to_file c else raise EError
    end.

  (** package.py 56-58: the file the installed package came from.  Neither name given to [join]
      starts with a slash. *)
  Definition current (name : string) (v : string * string * option Z) : string :=
    let '(version, release, build) := v in package_name name version release build false.
  Definition current_fn (cur : string) : string := join_path2 dest cur ++ package_suffix.
  (** package.py 62-63: [rstrip] takes away any of the characters of ".pisi" *)
  Definition delta_name (cur filename : string) : string := cur ++ "_" ++ py_rstrip package_suffix (basename filename) ++ xdelta_suffix.
  (** package.py 66-67 *)
  Definition delta_uri (u : uri) (cur : string) : uri := parse (join_path2 (dirname (u_uri u)) (delta_name cur (u_filename u))).
  Definition delta_fn (u : uri) (cur : string) : string := join_path2 dest (u_filename (delta_uri u cur)).

  Definition fetch_to (u : uri) : prog files unit := fetch server net parse mirrors authinfo dir_writable writable fuel u dest.
  (** package.py 71-83; FetchError is caught for the fetch alone *)
  Definition use_delta (u : uri) (filepath cur : string) : prog files unit :=
    f <~ ask (fun f => f) ;;
    if exists_ f (current_fn cur) then
      if exists_ f (delta_fn u cur) then generate_pisi_file (delta_fn u cur) (current_fn cur) filepath
      else
        got <~ try_except (_ <~ fetch_to (delta_uri u cur) ;; ret true) is_fetch_error (ret false) ;;
        if got : bool then generate_pisi_file (delta_fn u cur) (current_fn cur) filepath else ret tt
    else ret tt.

  Definition lift_res {A} (r : res A) : prog files A := match r with Ok a => ret a | Err e => raise e end.
  (** package.py 38-90: the file to open *)
  Definition find_package (u : uri) : prog files string :=
    if is_remote_file u then
      if negb fetcher then raise EImport
      else
        let filepath := join_path2 dest (u_filename u) in
        current_pkg <~ lift_res (pure_package_name (u_filename u)) ;;
        _ <~ match installed current_pkg with
             | Some v => if xdelta then use_delta u filepath (current current_pkg v) else ret tt
             | None => ret tt
             end ;;
        f <~ ask (fun f => f) ;;
        if exists_ f filepath then ret filepath else _ <~ fetch_to u ;; ret filepath
    else ret (u_uri u).
  (** package.py 92: what the archive is read from.  Whether it is an archive is not modelled here. *)
  Definition open_package (u : uri) : prog files string :=
    filepath <~ find_package u ;;
    f <~ ask (fun f => f) ;;
    match f !! filepath with Some c => ret c | None => raise EOS end.
End obtain.
