(** * Building from a specification on a server: its files

    pisi/op/build.py 123-144 (which directory is used), 241-288 (fetch_files and what it calls);
    pisi/file.py 94-119 as it is called there.

    A transfer is taken to be complete or to fail at once: a server has contents for some
    addresses.  How a file comes over in pieces, what is left of earlier attempts, mirrors and
    proxies are in Fetch.v.  Directories are made as needed (fetcher.py 143) and left out. *)
From Coq Require Import String Ascii ZArith List.
From stdpp Require Import gmap strings.
From Verif Require Import Model.Py Model.Path Model.Index Model.Trace Model.Fetch Model.Uri.
Import ListNotations.
Open Scope string_scope.
Open Scope prog_scope.

(** What of a specification names files *)
Record spec_package := mkSpecPackage { sp_scripts : list string; sp_additional : list string }.   (* providesComar, additionalFiles *)
Record spec_files := mkSpecFiles { sf_patches : list string; sf_packages : list spec_package }.

Section remote.
  Context (server : string -> option string)      (* what there is at an address *)
          (local : string -> bool)                (* os.path.exists *)
          (tmp_dir : string).                     (* ctx.config.tmp_dir() *)

  (** fetcher.py 148-180: an empty file is an error *)
  Definition fetch_url (u : uri) (dir : string) : prog files unit :=
    if String.eqb (u_filename u) "" then raise EFetch
    else match server (u_uri u) with
         | Some c => if String.eqb c "" then raise EFetch else change (fun f : files => <[os_join dir (u_filename u) := c]> f)
         | None => raise EFetch
         end.
  (** build.py 285-288 and file.py 94-139: what is no address of a server is only looked for *)
  Definition download (address dir : string) : prog files unit :=
    match parse_uri address with
    | Err e => raise e
    | Ok (u, _) =>
        if is_remote_file u then fetch_url u dir
        else if local address then ret tt else raise EOS
    end.

  (** build.py 254-256 *)
  Definition fetch_actionsfile (specdiruri destdir : string) : prog files unit :=
    download (join_path specdiruri ["actions.py"]) destdir.
  (** build.py 258-265 and 275-283 *)
  Definition fetch_from_files (specdiruri destdir filename : string) : prog files unit :=
    download (join_path specdiruri ["files"; dirname filename; basename filename]) (join_path destdir ["files"; dirname filename]).
  Definition fetch_patches (specdiruri destdir : string) (s : spec_files) : prog files unit :=
    each (fetch_from_files specdiruri destdir) (sf_patches s).
  (** build.py 267-273 *)
  Definition fetch_comarfiles (specdiruri destdir : string) (s : spec_files) : prog files unit :=
    each (fun package =>
      each (fun script => download (join_path specdiruri ["comar"; script]) (join_path destdir ["comar"])) (sp_scripts package)) (sf_packages s).
  (** build.py 275-283 *)
  Definition fetch_additionalFiles (specdiruri destdir : string) (s : spec_files) : prog files unit :=
    each (fun package => each (fetch_from_files specdiruri destdir) (sp_additional package)) (sf_packages s).

  (** build.py 241-252 *)
  Definition fetch_files (specuri : string) (s : spec_files) : prog files string :=
    let specdiruri := dirname specuri in
    let pkgname := basename specdiruri in
    let destdir := join_path tmp_dir [pkgname] in
    _ <~ fetch_actionsfile specdiruri destdir ;;
    _ <~ fetch_patches specdiruri destdir s ;;
    _ <~ fetch_comarfiles specdiruri destdir s ;;
    _ <~ fetch_additionalFiles specdiruri destdir s ;;
    ret destdir.

  (** build.py 133-137: [self.specdir], with the address as set_spec_file leaves it *)
  Definition specdir (specuri : string) (s : spec_files) : prog files string :=
    if is_remote_file (URI specuri) then fetch_files specuri s else ret (dirname specuri).
End remote.
