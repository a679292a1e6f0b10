(** * The additional files of packages: pisi/op/build.py 746-759, pisi/util/fs.py 82-86

    The loop of build_packages over the packages of a specification: additional files are put
    into the install directory, then the package is made of it.  Files are kept by absolute path,
    with contents and mode; links are left out, and so are directories with nothing in them.
    Which files the package takes (C70, build.py 594-636) is a parameter that looks at paths
    only.  int(x, 8) is modelled for strings of digits: signs, blanks and the prefix 0o, which it
    understands, are taken for errors here.  The working directory is left out. *)
From Coq Require Import String Ascii NArith List.
From stdpp Require Import gmap strings.
From Verif Require Import Model.Py Model.Path Model.Index.
Import ListNotations.
Open Scope string_scope.

Notation tree := (gmap string (string * N)).

(** data/specfile.py 53-57 *)
Record addfile := mkAdd { af_name : string; af_target : string; af_permission : option string }.
(** A package of the specification: its additional files, and the paths it takes *)
Record apkg := mkApkg { ap_files : list addfile; ap_takes : string -> bool }.

(** int(s, 8) *)
Definition oct_digit (c : ascii) : option N :=
  let n := N_of_ascii c in if (48 <=? n)%N && (n <=? 55)%N then Some (n - 48)%N else None.
Fixpoint oct_digits (acc : N) (s : string) : option N :=
  match s with
  | EmptyString => Some acc
  | String c r => match oct_digit c with Some d => oct_digits (acc * 8 + d)%N r | None => None end
  end.
Definition int8 (s : string) : res N :=
  match s with
  | EmptyString => Err EValue
  | _ => match oct_digits 0 s with Some n => Ok n | None => Err EValue end
  end.

Section additional.
  Context (sources : string -> option string)    (* the contents of files/NAME beside the specification *)
          (umask : N) (install : string).

  (** build.py 754 *)
  Definition dest_of (target : string) : string := os_join (install ++ dirname target) (basename target).

  (** The place is below a file, or is a directory *)
  Definition below (f g : string) : bool := py_startswith g (f ++ "/").
  Definition blocked (t : tree) (dest : string) : bool :=
    existsb (fun f => below f dest || below dest f) (map_to_list t).*1 || py_endswith dest "/".

  (** util/fs.py 82-86: a new file has the mode the umask leaves *)
  Definition copy_file (src dest : string) (t : tree) : tree * res unit :=
    match sources src with
    | None => (t, Err EError)
    | Some c =>
        if blocked t dest then (t, Err EOS)
        else (<[dest := (c, match t !! dest with Some (_, m) => m | None => N.land 438 (N.lxor 511 umask) end)]> t, Ok tt)
    end.

  (** os.chmod; the kernel looks at twelve bits *)
  Definition chmod (dest : string) (mode : N) (t : tree) : tree :=
    match t !! dest with Some (c, _) => <[dest := (c, N.land mode 4095)]> t | None => t end.

  (** build.py 752-758; the empty permission is none *)
  Definition store_one (t : tree) (af : addfile) : tree * res unit :=
    let dest := dest_of (af_target af) in
    match copy_file (af_name af) dest t with
    | (t, Err e) => (t, Err e)
    | (t, Ok _) =>
        match af_permission af with
        | None | Some "" => (t, Ok tt)
        | Some p => match int8 p with
                    | Err e => (t, Err e)
                    | Ok mode => (chmod dest mode t, Ok tt)
                    end
        end
    end.
  Fixpoint store (t : tree) (afs : list addfile) : tree * res unit :=
    match afs with
    | [] => (t, Ok tt)
    | af :: afs => match store_one t af with
                   | (t, Err e) => (t, Err e)
                   | (t, Ok _) => store t afs
                   end
    end.

  (** build.py 746-842, as far as files go: the packages made, and the install directory left *)
  Fixpoint make_each (t : tree) (pkgs : list apkg) : list tree * tree * res unit :=
    match pkgs with
    | [] => ([], t, Ok tt)
    | p :: pkgs =>
        match store t (ap_files p) with
        | (t, Err e) => ([], t, Err e)
        | (t, Ok _) =>
            let made := filter (fun kv => ap_takes p kv.1 = true) t in
            let '(rest, t', r) := make_each t pkgs in
            (made :: rest, t', r)
        end
    end.

  Context (strip : tree -> tree).                (* build.py 730 (C94) *)
  (** build.py 724-842 without static and debug packages *)
  Definition make_packages (t : tree) (pkgs : list apkg) : list tree * tree * res unit := make_each (strip t) pkgs.
End additional.
