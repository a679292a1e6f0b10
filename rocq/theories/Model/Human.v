(** * Sizes and rates as they are shown: pisi/util/fun.py 81-92, pisi/op/install.py 530-531,
    pisi/op/upgrade.py 146-147, pisi/data/metadata.py 48

    Python 2 has whole numbers and floats, and "/" between whole numbers rounds down (util/fun.py
    does not ask for the other division).  Simplified: a float is a rational number.  Dividing a
    float by 1024 is exact, and so is float() of a whole number up to 2^53, that is of sizes up to
    2^63 bytes here.  What "%.2f" makes of the number is not modelled. *)
From Coq Require Import String ZArith QArith List Bool.
From Verif Require Import Model.Py.
Import ListNotations.
Open Scope string_scope.

(** the two kinds of numbers *)
Inductive num := PInt (z : Z) | PFloat (q : Q).

(** "size > 1000" of util/fun.py 84 *)
Definition over_1000 (n : num) : bool :=
  match n with PInt z => (1000 <? z)%Z | PFloat q => negb (Qle_bool q (inject_Z 1000)) end.

(** "size / 1024" of util/fun.py 85 *)
Definition div_1024 (n : num) : num :=
  match n with PInt z => PInt (z / 1024)%Z | PFloat q => PFloat (q / inject_Z 1024) end.

(** float(), util/fun.py 85 *)
Definition to_float (n : num) : num :=
  match n with PInt z => PFloat (inject_Z z) | PFloat q => PFloat q end.

(** util/fun.py 82 *)
Definition symbols : list string := [" B"; "KB"; "MB"; "GB"].

(** util/fun.py 84-86: [more] is 3 - depth *)
Fixpoint shrink (more : nat) (size : num) (depth : nat) : num * nat :=
  match more with
  | O => (size, depth)
  | S more => if over_1000 size then shrink more (to_float (div_1024 size)) (S depth) else (size, depth)
  end.

(** util/fun.py 81-88 *)
Definition human_readable_size (size : num) : num * string :=
  let '(size, depth) := shrink 3 size 0 in (size, nth depth symbols "").

(** util/fun.py 90-92 *)
Definition human_readable_rate (size : num) : num * string :=
  let x := human_readable_size size in (fst x, snd x ++ "/s").

(** sum() over the sizes: None is not a number *)
Fixpoint sum_from (acc : Z) (l : list (option Z)) : res Z :=
  match l with
  | [] => Ok acc
  | None :: _ => Err EType
  | Some z :: l => sum_from (acc + z)%Z l
  end.

(** install.py 530-531 and upgrade.py 146-147: [l] are the packageSize of the packages of the order,
    None for those whose entry in the repository has no size (metadata.py 48: it is optional) *)
Definition total_shown (l : list (option Z)) : res (num * string) :=
  total <- sum_from 0 l ;; Ok (human_readable_size (PInt total)).
