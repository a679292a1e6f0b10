(** * Sequences, path names and package file names

    pisi/util/fun.py, pisi/util/path.py, pisi/util/pkg.py, and the functions of os.path they
    stand beside. *)
From Coq Require Import String Ascii List Bool ZArith Arith.
From Verif Require Import Model.Py.
Import ListNotations.
Open Scope string_scope.

Section sequences.
  Context {A : Type} (eqb : A -> A -> bool).
  (** util/fun.py 53-60: the loop over range(0, len(a)), which stops at the first difference *)
  Fixpoint same_start (a b : list A) : bool :=
    match a, b with
    | [], _ => true
    | x :: a, y :: b => if eqb x y then same_start a b else false
    | _ :: _, [] => false
    end.
  Definition prefix (a b : list A) : bool :=
    if (length b <? length a)%nat then false else same_start a b.
  (** util/fun.py 62-65 *)
  Definition remove_prefix (a b : list A) : res (list A) :=
    assert! prefix a b else EAssert ;; Ok (skipn (length a) b).
  (** util/fun.py 67-74: the indices -1, -2, ... run through both from the end *)
  Definition suffix (a b : list A) : bool :=
    if (length b <? length a)%nat then false else same_start (rev a) (rev b).
  (** [b[:-n]]: for n = 0 that is [b[:0]] *)
  Definition upto_minus (n : nat) (b : list A) : list A :=
    match n with O => [] | _ => firstn (length b - n) b end.
  (** util/fun.py 76-79 *)
  Definition remove_suffix (a b : list A) : res (list A) :=
    assert! suffix a b else EAssert ;; Ok (upto_minus (length a) b).
  (** util/fun.py 42-51 (that [l] loses its last element is left out) *)
  Definition same (l : list A) : bool :=
    match rev l with [] => true | y :: l' => forallb (fun x => eqb x y) l' end.
End sequences.

(** util/fun.py 35-40: [concat] of no list is a TypeError, but split returns at least one. *)
Definition multisplit (str : string) (chars : list ascii) : list string :=
  fold_left (fun l c => flat_map (py_split c) l) chars [str].

(** os.path.sep *)
Definition slash : ascii := "/".

(** util/path.py 25-31 *)
Definition splitpath (a : string) : list string :=
  let comps := py_split slash a in
  if String.eqb (last comps "") "" then removelast comps else comps.

(** util/path.py 33-39 with the default separator *)
Definition makepath (comps : list string) (relative : bool) : string :=
  let path := fold_left (fun x y => x ++ "/" ++ y) comps "" in
  if relative then py_drop 1 path else path.

(** [s.rfind(c)], -1 as None *)
Fixpoint py_rfind (c : ascii) (s : string) : option nat :=
  match s with
  | EmptyString => None
  | String a s' => match py_rfind c s' with
                   | Some n => Some (S n)
                   | None => if Ascii.eqb a c then Some O else None
                   end
  end.

(** util/path.py 41-44: [a[:-1]] when there is no separator *)
Definition parentpath (a : string) : string :=
  let a := py_rstrip "/" a in
  match py_rfind slash a with
  | Some n => py_take n a
  | None => py_take (String.length a - 1) a
  end.

(** util/path.py 64-66 *)
Definition subpath (a b : string) : bool := prefix String.eqb (splitpath a) (splitpath b).

(** util/path.py 81-91 *)
Definition join_path2 (path b : string) : string :=
  let b := py_lstrip "/" b in
  if String.eqb path "" || py_endswith path "/" then path ++ b else path ++ "/" ++ b.
Definition join_path (a : string) (p : list string) : string := fold_left join_path2 p a.

(** util/path.py 68-74 *)
Definition removepathprefix (pre path : string) : res string :=
  comps <- remove_prefix String.eqb (splitpath pre) (splitpath path) ;;
  match comps with
  | c :: cs => Ok (join_path c cs)
  | [] => Ok ""
  end.

(** util/path.py 76-79: [comps[0]] of the empty path is an IndexError *)
Definition absolute_path (path : string) : res bool :=
  match splitpath path with
  | [] => Err EIndex
  | c :: _ => Ok (String.eqb c "")
  end.

(** Python's posixpath.dirname and basename *)
Fixpoint all_slashes (s : string) : bool :=
  match s with EmptyString => true | String a s => Ascii.eqb a slash && all_slashes s end.
Definition dirname (p : string) : string :=
  let head := match py_rfind slash p with Some n => py_take (S n) p | None => "" end in
  if all_slashes head then head else py_rstrip "/" head.
Definition basename (p : string) : string :=
  match py_rfind slash p with Some n => py_drop (S n) p | None => p end.

(** ** Package file names, pisi/util/pkg.py *)

(** constants.py 36 *)
Definition package_suffix : string := ".pisi".

(** util/pkg.py 29-35: a build number that is None or 0 is left out *)
Definition build_part (build : option Z) : string :=
  match build with
  | Some b => if Z.eqb b 0 then "" else "-" ++ str_of_Z b
  | None => ""
  end.
Definition package_name (name version release : string) (build : option Z) (prependSuffix : bool) : string :=
  let fn := name ++ "-" ++ version ++ "-" ++ release ++ build_part build in
  if prependSuffix then fn ++ package_suffix else fn.

(** util/pkg.py 47-50 *)
Definition starts_with_digit (x : string) : bool :=
  match x with String c _ => is_digit c | EmptyString => false end.

(** util/pkg.py 37-51: [len(None)] is a TypeError *)
Definition is_package_name (fn : string) (name : option string) : res bool :=
  let fits := match name with None => true | Some n => py_startswith fn (n ++ "-") end in
  if fits && py_endswith fn package_suffix then
    match name with
    | None => Err EType
    | Some n =>
        let stop := (String.length fn - String.length package_suffix)%nat in
        let verstr := py_drop (String.length n + 1) (py_take stop fn) in
        Ok (forallb starts_with_digit (py_split "-" verstr))
    end
  else Ok false.

(** util/pkg.py 76-82: the loop; [part[0]] of an empty part is an IndexError, except for the
    first part, which is not looked at *)
Fixpoint name_parts (name parts : list string) : res (list string) :=
  match parts with
  | [] => Ok name
  | part :: parts =>
      match name, part with
      | [], _ => name_parts [part] parts
      | _, EmptyString => Err EIndex
      | _, String c _ => if is_digit c then Ok name else name_parts (name ++ [part]) parts
      end
  end.
(** util/pkg.py 72-86 *)
Definition parse_package_name (pn : string) : res (string * string) :=
  parts <- name_parts [] (py_split "-" pn) ;;
  let name := py_join "-" parts in
  Ok (name, py_drop (String.length name + 1) pn).

(** util/pkg.py 63-70: rstrip strips any of the characters of ".pisi" *)
Definition pure_package_name (pn : string) : res string :=
  let pn := if py_endswith pn package_suffix then py_rstrip package_suffix pn else pn in
  nv <- parse_package_name pn ;; Ok (fst nv).
