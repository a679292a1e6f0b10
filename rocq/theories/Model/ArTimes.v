(** * The times in archives of object code: pisi/util/fs.py 90-104

    Called for every produced file whose name ends in '.a', before its SHA-1 is taken
    (util/fs.py 118-122). *)
From Coq Require Import String Ascii ZArith List Bool.
From Verif Require Import Model.Py.
Import ListNotations.
Open Scope Z_scope.

(** Contents of a file *)
Notation bytes := (list ascii).

(** file.readlines(): each line keeps its newline *)
Fixpoint readlines (s : bytes) : list bytes :=
  match s with
  | [] => []
  | c :: s =>
      if Ascii.eqb c newline then [c] :: readlines s
      else match readlines s with
           | [] => [[c]]
           | l :: ls => (c :: l) :: ls
           end
  end.

(** s[a:b] for Python ints: negative ones count from the end *)
Definition clamp (n i : Z) : Z := if i <? 0 then Z.max 0 (n + i) else Z.min i n.
Definition slice (a b : Z) (s : bytes) : bytes :=
  let n := Z.of_nat (length s) in
  firstn (Z.to_nat (clamp n b - clamp n a)) (skipn (Z.to_nat (clamp n a)) s).
(** s[a:] *)
Definition slice_from (a : Z) (s : bytes) : bytes := skipn (Z.to_nat (clamp (Z.of_nat (length s)) a)) s.

(** s.rfind(chr(32) + chr(96)) *)
Definition at_mark (s : bytes) : bool :=
  match s with
  | a :: b :: _ => Ascii.eqb a " " && Ascii.eqb b "`"
  | _ => false
  end.
Fixpoint rfind_mark (s : bytes) : Z :=
  match s with
  | [] => -1
  | c :: s' =>
      let k := rfind_mark s' in
      if k <? 0 then (if at_mark s then 0 else -1) else k + 1
  end.

(** fs.py 100-102; x.find(chr(47)) > -1 *)
Definition has_slash (s : bytes) : bool := existsb (fun c => Ascii.eqb c "/") s.
Definition zeros : bytes := repeat "0"%char 10.
Definition clean_line (line : bytes) : bytes :=
  let pos := rfind_mark line in
  if (-1 <? pos) && has_slash (slice (pos - 57) (pos + 2) line)
  then (slice 0 (pos - 41) line ++ zeros ++ slice_from (pos - 31) line)%list
  else line.

(** fs.py 90-91 *)
Definition is_ar_file (content : bytes) : bool :=
  String.eqb (py_strip (string_of_list_ascii (match readlines content with [] => [] | l :: _ => l end))) "!<arch>".
(** fs.py 93-104 *)
Definition clean_ar_timestamps (content : bytes) : bytes :=
  if is_ar_file content then concat (map clean_line (readlines content)) else content.
