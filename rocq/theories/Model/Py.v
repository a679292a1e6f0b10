(** * Python runtime vocabulary shared by the model files

    Exceptions as values, and the handful of Python 2 [str] methods that pisi uses.
    Nothing in this file is pisi code; it is the part of the Python runtime the
    other model files lean on. *)
From Coq Require Import String Ascii List Bool ZArith Arith.
Import ListNotations.
Open Scope string_scope.

(** ** Exceptions
    One constructor per exception class that pisi code raises, catches, or lets
    escape.  [EFuel] is not a Python exception: it marks exhausted fuel in a loop
    whose termination is proved separately. *)
Inductive exn : Type :=
| EError            (* pisi.Error and subclasses: pisi/__init__.py 32-34 *)
| ECycle (cyc : list string)  (* pisi/data/graph.py CycleException *)
| EAlreadyHave      (* pisi/file.py AlreadyHaveException *)
| EFetch            (* pisi/fetcher.py FetchError *)
| EUpgradePisi      (* pisi/cli PisiUpgradeException *)
| EValue            (* ValueError *)
| EKey              (* KeyError *)
| EType             (* TypeError *)
| EIndex            (* IndexError *)
| EAttribute        (* AttributeError *)
| EImport           (* ImportError *)
| EName             (* NameError / UnboundLocalError *)
| EAssert           (* AssertionError *)
| EOS               (* OSError / IOError *)
| EDB               (* bsddb DBError *)
| EFuel.

Inductive res (A : Type) : Type :=
| Ok (a : A)
| Err (e : exn).
Arguments Ok {A} a.
Arguments Err {A} e.

Definition bind {A B} (x : res A) (f : A -> res B) : res B :=
  match x with Ok a => f a | Err e => Err e end.
Notation "x <- e ;; f" := (bind e (fun x => f)) (at level 100, e at next level, right associativity).
Notation "'assert!' b 'else' e ;; f" := (if b then f else Err e)
  (at level 100, b at next level, e at next level, right associativity).

Definition is_ok {A} (x : res A) : bool := match x with Ok _ => true | Err _ => false end.

(** [map] of a function that may raise, left to right. *)
Fixpoint mapM {A B} (f : A -> res B) (l : list A) : res (list B) :=
  match l with
  | [] => Ok []
  | x :: l' => y <- f x ;; ys <- mapM f l' ;; Ok (y :: ys)
  end.

(** [for x in l: s = f(s, x)] with exceptions. *)
Fixpoint foldM {A S} (f : S -> A -> res S) (l : list A) (s : S) : res S :=
  match l with
  | [] => Ok s
  | x :: l' => s' <- f s x ;; foldM f l' s'
  end.

(** ** str methods *)

(** [s.split(c)] for a one-character separator: never returns the empty list. *)
Fixpoint py_split (c : ascii) (s : string) : list string :=
  match s with
  | EmptyString => [EmptyString]
  | String a s' =>
      if Ascii.eqb a c then EmptyString :: py_split c s'
      else match py_split c s' with
           | [] => [String a EmptyString]          (* unreachable *)
           | p :: ps => String a p :: ps
           end
  end.

(** [c.join(l)] *)
Fixpoint py_join (sep : string) (l : list string) : string :=
  match l with
  | [] => EmptyString
  | [x] => x
  | x :: l' => x ++ sep ++ py_join sep l'
  end.

(** [s.startswith(p)] *)
Fixpoint py_startswith (s p : string) : bool :=
  match p, s with
  | EmptyString, _ => true
  | String a p', String b s' => Ascii.eqb a b && py_startswith s' p'
  | String _ _, EmptyString => false
  end.

(** [s[n:]] for [n >= 0] *)
Fixpoint py_drop (n : nat) (s : string) : string :=
  match n, s with
  | O, _ => s
  | S n', String _ s' => py_drop n' s'
  | S _, EmptyString => EmptyString
  end.

(** [s[:n]] for [n >= 0] *)
Fixpoint py_take (n : nat) (s : string) : string :=
  match n, s with
  | O, _ => EmptyString
  | S n', String a s' => String a (py_take n' s')
  | S _, EmptyString => EmptyString
  end.

Fixpoint str_rev_app (s acc : string) : string :=
  match s with
  | EmptyString => acc
  | String a s' => str_rev_app s' (String a acc)
  end.
Definition str_rev (s : string) : string := str_rev_app s EmptyString.

(** [s.endswith(p)] *)
Definition py_endswith (s p : string) : bool := py_startswith (str_rev s) (str_rev p).

(** [c in s] for a single character *)
Fixpoint char_in (c : ascii) (s : string) : bool :=
  match s with
  | EmptyString => false
  | String a s' => Ascii.eqb a c || char_in c s'
  end.

(** [s.lstrip(chars)]: strips any leading characters belonging to the *set* chars. *)
Fixpoint py_lstrip (chars : string) (s : string) : string :=
  match s with
  | EmptyString => EmptyString
  | String a s' => if char_in a chars then py_lstrip chars s' else s
  end.
(** [s.rstrip(chars)] *)
Definition py_rstrip (chars : string) (s : string) : string :=
  str_rev (py_lstrip chars (str_rev s)).

(** ASCII classes *)
Definition is_digit (c : ascii) : bool :=
  let n := nat_of_ascii c in (48 <=? n)%nat && (n <=? 57)%nat.
Definition is_upper (c : ascii) : bool :=
  let n := nat_of_ascii c in (65 <=? n)%nat && (n <=? 90)%nat.
Definition is_lower (c : ascii) : bool :=
  let n := nat_of_ascii c in (97 <=? n)%nat && (n <=? 122)%nat.
Definition is_letter (c : ascii) : bool := is_upper c || is_lower c.
(** C locale [isspace]: space, \t \n \v \f \r *)
Definition is_space (c : ascii) : bool :=
  let n := nat_of_ascii c in (n =? 32)%nat || ((9 <=? n)%nat && (n <=? 13)%nat).
Definition newline : ascii := ascii_of_nat 10.
Definition whitespace_chars : string :=
  String " " (String (ascii_of_nat 9) (String newline (String (ascii_of_nat 11)
    (String (ascii_of_nat 12) (String (ascii_of_nat 13) EmptyString))))).

(** [s.strip()] *)
Definition py_strip (s : string) : string := py_rstrip whitespace_chars (py_lstrip whitespace_chars s).

(** ** [int(s)] for a byte string, base 10
    Leading and trailing whitespace is skipped, one optional sign, then at least one
    digit.  Simplification: whitespace between the sign and the digits is rejected. *)
Definition digit_val (c : ascii) : Z := Z.of_nat (nat_of_ascii c - 48).
Fixpoint digits_acc (s : string) (acc : Z) : option Z :=
  match s with
  | EmptyString => Some acc
  | String c s' => if is_digit c then digits_acc s' (acc * 10 + digit_val c)%Z else None
  end.
Definition digits (s : string) : option Z :=
  match s with EmptyString => None | _ => digits_acc s 0%Z end.
Definition py_int (s : string) : res Z :=
  let t := py_strip s in
  let o := match t with
           | String "+" t' => digits t'
           | String "-" t' => option_map Z.opp (digits t')
           | _ => digits t
           end in
  match o with Some z => Ok z | None => Err EValue end.

(** [str(n)] for a natural number: decimal digits without leading zeros. *)
Fixpoint nat_digits_fuel (fuel : nat) (n : N) (acc : string) : string :=
  match fuel with
  | O => acc
  | S f =>
      let d := ascii_of_N (48 + N.modulo n 10)%N in
      let q := N.div n 10 in
      if N.eqb q 0 then String d acc else nat_digits_fuel f q (String d acc)
  end.
Definition str_of_N (n : N) : string := nat_digits_fuel (S (N.to_nat (N.log2 n))) n EmptyString.
(** [str(z)] *)
Definition str_of_Z (z : Z) : string :=
  match z with
  | Z0 => "0"
  | Zpos p => str_of_N (Npos p)
  | Zneg p => String "-" (str_of_N (Npos p))
  end.

(** Python truthiness of an optional string attribute ([None] or [''] are false). *)
Definition truthy (o : option string) : bool :=
  match o with Some (String _ _) => true | _ => false end.

(** Membership test on lists of names. *)
Definition str_in (x : string) (l : list string) : bool := existsb (String.eqb x) l.
