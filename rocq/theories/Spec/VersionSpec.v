(** * What version ordering and version syntax mean

    Stated without the model's parsing or comparison functions; only the data types
    [item], [keyword], [ivalue] are shared. *)
From Coq Require Import String Ascii List ZArith.
From Verif Require Import Model.Version.
Import ListNotations.
Open Scope string_scope.

(** ** Ordering *)

(** "p > (no suffix) > m > rc > pre > beta > alpha" (comment in version.py 30-33). *)
Definition kw_order : list keyword := [KAlpha; KBeta; KPre; KRc; KM; KNone; KP].
Definition kw_before (a b : keyword) : Prop :=
  exists l1 l2 l3, kw_order = (l1 ++ a :: l2 ++ b :: l3)%list.

Inductive val_before : ivalue -> ivalue -> Prop :=
| vb_num x y : (x < y)%Z -> val_before (VInt x) (VInt y)
| vb_num_letter x c : val_before (VInt x) (VLetter c)
| vb_letter c d : nat_of_ascii c < nat_of_ascii d -> val_before (VLetter c) (VLetter d).

Definition item_before (a b : item) : Prop :=
  kw_before (i_kw a) (i_kw b) \/ (i_kw a = i_kw b /\ val_before (i_val a) (i_val b)).

(** Component [i] of a version; versions continue with plain zeros for ever. *)
Definition comp (v : version) (i : nat) : item :=
  nth i v {| i_kw := KNone; i_val := VInt 0 |}.

Definition ver_before (a b : version) : Prop :=
  exists i, (forall j, j < i -> comp a j = comp b j) /\ item_before (comp a i) (comp b i).

Definition ver_same (a b : version) : Prop := forall i, comp a i = comp b i.

(** ** Syntax *)

Definition chars (s : string) : list ascii := list_ascii_of_string s.

Definition code_in (lo hi : nat) (c : ascii) : Prop := lo <= nat_of_ascii c <= hi.
Definition digit (c : ascii) : Prop := code_in 48 57 c.
Definition letter (c : ascii) : Prop := code_in 65 90 c \/ code_in 97 122 c.
Definition space (c : ascii) : Prop := nat_of_ascii c = 32 \/ code_in 9 13 c.
Definition separator (c : ascii) : Prop := c = "."%char \/ c = "-"%char \/ c = "_"%char.

(** A non-empty digit string and its value. *)
Definition decimal (s : string) (n : Z) : Prop :=
  s <> "" /\ Forall digit (chars s) /\
  n = fold_left (fun acc c => 10 * acc + (Z.of_nat (nat_of_ascii c) - 48))%Z (chars s) 0%Z.

(** The texts Python's [int] accepts. *)
Inductive number : string -> Z -> Prop :=
| num_intro pre sgn ds post n m :
    Forall space (chars pre) -> Forall space (chars post) -> decimal ds n ->
    (sgn = "" /\ m = n \/ sgn = "+" /\ m = n \/ sgn = "-" /\ m = (- n)%Z) ->
    number (pre ++ sgn ++ ds ++ post) m.

(** The keyword texts of version.py 34-40, written out again so that the grammar does
    not lean on the model's table. *)
Definition kw_name (k : keyword) : string :=
  match k with
  | KAlpha => "alpha" | KBeta => "beta" | KPre => "pre" | KRc => "rc"
  | KM => "m" | KP => "p" | KNone => ""
  end.

(** A piece without its trailing letter. *)
Inductive head_item : string -> item -> Prop :=
| hi_number s n : number s n -> head_item s {| i_kw := KNone; i_val := VInt n |}
| hi_keyword k s n :
    k <> KNone -> number s n -> head_item (kw_name k ++ s) {| i_kw := k; i_val := VInt n |}
| hi_letter c : letter c -> head_item (String c "") {| i_kw := KNone; i_val := VLetter c |}.

(** One piece between separators.  A piece that is a number or keyword-number gives one
    component; a piece that ends in a letter (possibly followed by one newline) gives
    two.  A piece that is just one letter is not in the language. *)
Inductive piece_items : string -> list item -> Prop :=
| pi_number s n : number s n -> piece_items s [{| i_kw := KNone; i_val := VInt n |}]
| pi_keyword k s n :
    k <> KNone -> number s n -> piece_items (kw_name k ++ s) [{| i_kw := k; i_val := VInt n |}]
| pi_tail h i c nl :
    head_item h i -> letter c -> (nl = "" \/ nl = String (ascii_of_nat 10) "") ->
    piece_items (h ++ String c nl) [i; {| i_kw := KNone; i_val := VLetter c |}].

(** [splits s ps]: [ps] are the maximal separator-free pieces of [s]. *)
Inductive splits : string -> list string -> Prop :=
| sp_one p : Forall (fun c => ~ separator c) (chars p) -> splits p [p]
| sp_more p c s ps :
    Forall (fun c => ~ separator c) (chars p) -> separator c -> splits s ps ->
    splits (p ++ String c s) (p :: ps).

Definition version_syntax (s : string) (v : version) : Prop :=
  exists ps itemss, splits s ps /\ Forall2 piece_items ps itemss /\ v = concat itemss.

(** ** Histories of comparisons over shared objects *)

(** [comparisons h log h'] : starting from the objects [h], the comparisons in [log]
    (left object, right object, answer) were made one after another, leaving the
    objects as [h']. *)
Inductive comparisons : vheap -> list (nat * nat * Z) -> vheap -> Prop :=
| cmp_none h : comparisons h [] h
| cmp_step h i j c h1 log h2 :
    heap_compare h i j = Some (c, h1) -> comparisons h1 log h2 -> comparisons h ((i, j, c) :: log) h2.
