(** * pisi/version.py *)
From Coq Require Import String Ascii List Bool ZArith.
From Verif Require Import Model.Py.
Import ListNotations.
Open Scope string_scope.

(** version.py 34-40: the keys of the [keywords] dictionary. *)
Inductive keyword := KAlpha | KBeta | KPre | KRc | KM | KNone | KP.

(** version.py 34-40: the dictionary values. *)
Definition kw_rank (k : keyword) : Z :=
  match k with
  | KAlpha => 0 | KBeta => 1 | KPre => 2 | KRc => 3 | KM => 4 | KNone => 5 | KP => 6
  end.

(** version.py 34-40: the key texts. *)
Definition kw_text (k : keyword) : string :=
  match k with
  | KAlpha => "alpha" | KBeta => "beta" | KPre => "pre" | KRc => "rc"
  | KM => "m" | KNone => "NOKEY" | KP => "p"
  end.

(** [keywords.keys()] in one order; [pick_keyword] takes the order as an argument
    because dictionary iteration order is unspecified. *)
Definition all_keywords : list keyword := [KAlpha; KBeta; KPre; KRc; KM; KNone; KP].

Definition keyword_eqb (a b : keyword) : bool := Z.eqb (kw_rank a) (kw_rank b).

(** [_value]: an int, or a one-letter string (version.py 74-78). *)
Inductive ivalue := VInt (z : Z) | VLetter (c : ascii).

(** VersionItem instances: version.py 50-52. *)
Record item := mkItem { i_kw : keyword; i_val : ivalue }.

(** version.py 61-71: the loop over [keywords.keys()] choosing the keyword. *)
Definition pick_keyword (ks : list keyword) (s : string) : keyword :=
  if Nat.ltb 1 (String.length s) then
    fold_left (fun cur k =>
                 if py_startswith s (kw_text k) then
                   if keyword_eqb cur KNone then k
                   else if Nat.ltb (String.length (kw_text cur)) (String.length (kw_text k)) then k
                   else cur
                 else cur) ks KNone
  else KNone.

(** version.py 54-82: VersionItem.__init__.  [ks] is the iteration order of the
    keyword dictionary. *)
Definition mk_item (ks : list keyword) (s : string) : res item :=
  match pick_keyword ks s with
  | KNone =>
      match s with
      | String c EmptyString =>
          if is_letter c then Ok (mkItem KNone (VLetter c))
          else z <- py_int s ;; Ok (mkItem KNone (VInt z))
      | _ => z <- py_int s ;; Ok (mkItem KNone (VInt z))
      end
  | k => z <- py_int (py_drop (String.length (kw_text k)) s) ;; Ok (mkItem k (VInt z))
  end.

(** Python 2 comparison [a < b] of the values: numbers numerically, strings by byte,
    and any number before any string. *)
Definition val_ltb (a b : ivalue) : bool :=
  match a, b with
  | VInt x, VInt y => Z.ltb x y
  | VInt _, VLetter _ => true
  | VLetter _, VInt _ => false
  | VLetter c, VLetter d => Nat.ltb (nat_of_ascii c) (nat_of_ascii d)
  end.

(** version.py 87-95: VersionItem.__lt__ *)
Definition item_ltb (a b : item) : bool :=
  let l := kw_rank (i_kw a) in
  let r := kw_rank (i_kw b) in
  if Z.ltb l r then true
  else if Z.eqb l r then val_ltb (i_val a) (i_val b)
  else false.

(** version.py 107-115: VersionItem.__gt__ ([>] on values is [<] swapped). *)
Definition item_gtb (a b : item) : bool :=
  let l := kw_rank (i_kw a) in
  let r := kw_rank (i_kw b) in
  if Z.ltb r l then true
  else if Z.eqb l r then val_ltb (i_val b) (i_val a)
  else false.

Definition val_eqb (a b : ivalue) : bool :=
  match a, b with
  | VInt x, VInt y => Z.eqb x y
  | VLetter c, VLetter d => Ascii.eqb c d
  | _, _ => false
  end.
(** version.py 97-105, 117-125, 127-132: __le__, __ge__, __eq__ *)
Definition item_leb (a b : item) : bool :=
  let l := kw_rank (i_kw a) in
  let r := kw_rank (i_kw b) in
  if Z.ltb l r then true
  else if Z.eqb l r then val_ltb (i_val a) (i_val b) || val_eqb (i_val a) (i_val b)
  else false.
Definition item_geb (a b : item) : bool :=
  let l := kw_rank (i_kw a) in
  let r := kw_rank (i_kw b) in
  if Z.ltb r l then true
  else if Z.eqb l r then val_ltb (i_val b) (i_val a) || val_eqb (i_val b) (i_val a)
  else false.
Definition item_eqb (a b : item) : bool :=
  Z.eqb (kw_rank (i_kw a)) (kw_rank (i_kw b)) && val_eqb (i_val a) (i_val b).

(** version.py 139: [self.comps]. *)
Definition version := list item.

(** util/fun.py 27-29, 35-40: [concat] of the mapped splits, once per separator. *)
Fixpoint multisplit_l (l : list string) (chars : list ascii) : list string :=
  match chars with
  | [] => l
  | c :: cs => multisplit_l (concat (map (py_split c) l)) cs
  end.
Definition multisplit (s : string) (chars : string) : list string :=
  multisplit_l [s] (list_ascii_of_string chars).

(** version.py 144: [re.compile("[a-z-A-Z]$").search(i)].  The class also contains
    '-'.  '$' matches at the end and before one trailing newline.  Returns
    (text before the match, matched character). *)
Definition tail_class (c : ascii) : bool := is_letter c || Ascii.eqb c "-".
Definition tail_match (s : string) : option (string * ascii) :=
  match str_rev s with
  | EmptyString => None
  | String c r =>
      if tail_class c then Some (str_rev r, c)
      else if Ascii.eqb c newline then
             match r with
             | String d r' => if tail_class d then Some (str_rev r', d) else None
             | EmptyString => None
             end
           else None
  end.

(** version.py 140-151: one piece of the version string. *)
Definition parse_piece (ks : list keyword) (p : string) : res (list item) :=
  match tail_match p with
  | Some (h, t) =>
      ih <- mk_item ks h ;; it <- mk_item ks (String t EmptyString) ;; Ok [ih; it]
  | None => i <- mk_item ks p ;; Ok [i]
  end.

(** version.py 138-153: Version.__init__ *)
Definition parse_version_ks (ks : list keyword) (s : string) : res version :=
  ls <- mapM (parse_piece ks) (multisplit s ".-_") ;; Ok (concat ls).
Definition parse_version (s : string) : res version := parse_version_ks all_keywords s.

(** version.py 170: [VersionItem('0')] *)
Definition zero_item : item := mkItem KNone (VInt 0).

(** version.py 168-172: the in-place padding; returns both (possibly extended) lists. *)
Definition pad (l r : version) : version * version :=
  if Nat.ltb (length l) (length r)
  then ((l ++ repeat zero_item (length r - length l))%list, r)
  else if Nat.ltb (length r) (length l)
  then (l, (r ++ repeat zero_item (length l - length r))%list)
  else (l, r).

(** version.py 174-179: the loop over [zip(lhs, rhs)]. *)
Fixpoint cmp_zip (l r : version) : Z :=
  match l, r with
  | x :: l', y :: r' =>
      if item_ltb x y then (-1)%Z else if item_gtb x y then 1%Z else cmp_zip l' r'
  | _, _ => 0%Z
  end.

(** version.py 158-179: Version.compare, with the two argument lists as they are left
    behind. *)
Definition compare_mut (l r : version) : Z * (version * version) :=
  let '(l', r') := pad l r in (cmp_zip l' r', (l', r')).

Definition vcompare (l r : version) : Z := fst (compare_mut l r).

(** version.py 183-196 *)
Definition v_lt (l r : version) : bool := Z.ltb (vcompare l r) 0.
Definition v_le (l r : version) : bool := Z.leb (vcompare l r) 0.
Definition v_gt (l r : version) : bool := Z.ltb 0 (vcompare l r).
Definition v_ge (l r : version) : bool := Z.leb 0 (vcompare l r).
Definition v_eq (l r : version) : bool := Z.eqb (vcompare l r) 0.

(** The five operators applied to fresh objects made from strings. *)
Definition str_compare (a b : string) : res Z :=
  va <- parse_version a ;; vb <- parse_version b ;; Ok (vcompare va vb).

(** A store of Version objects; comparing objects [i] and [j] updates both in place.
    Comparing an object with itself pads nothing (same list). *)
Definition vheap := list version.
Fixpoint set_nth {A} (n : nat) (x : A) (l : list A) : list A :=
  match n, l with
  | O, _ :: l' => x :: l'
  | S n', y :: l' => y :: set_nth n' x l'
  | _, [] => []
  end.
Definition heap_compare (h : vheap) (i j : nat) : option (Z * vheap) :=
  match nth_error h i, nth_error h j with
  | Some l, Some r =>
      let '(c, (l', r')) := compare_mut l r in
      Some (c, set_nth j r' (set_nth i l' h))
  | _, _ => None
  end.
