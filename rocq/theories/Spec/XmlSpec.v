(** * What XML documents can carry, as users see it *)
From Coq Require Import String Ascii ZArith NArith List Bool.
From stdpp Require Import gmap strings.
From Verif Require Import Model.Py Model.Xml.
Import ListNotations.
Open Scope string_scope.

(** ** Classes that can be used *)

(** The tags on the way from an element to the values of a member *)
Definition comps_of (token : string) (t : typ) (path : option string) : list string :=
  match t with ListOf t => list_path token t path | _ => [token] end.
Fixpoint begins_path (p q : list string) : bool :=
  match p, q with
  | [], _ => true
  | a :: p, b :: q => String.eqb a b && begins_path p q
  | _, _ => false
  end.
Definition apart (p q : list string) : bool := negb (begins_path p q) && negb (begins_path q p).

(** A class may declare again a simple tag of its base. *)
Definition basic_eqb (a b : basic) : bool :=
  match a, b with TString, TString | TText, TText | TInteger, TInteger | TLong, TLong => true | _, _ => false end.
Definition again (a b : member typ) : bool :=
  match a, b with
  | Tag k (Basic x) _ _, Tag k' (Basic y) _ _ => String.eqb k k' && basic_eqb x y
  | _, _ => false
  end.
(** Otherwise two members have different names, and do not share a place: tags lie on different
    paths; the text comes first, and must be there if there are tags. *)
Definition pair_ok (a b : member typ) : bool :=
  again a b ||
  (negb (String.eqb (member_name a) (member_name b)) &&
   match a, b with
   | Attr k _ _, Attr k' _ _ => negb (String.eqb k k')
   | Tag k t _ p, Tag k' t' _ p' => apart (comps_of k t p) (comps_of k' t' p')
   | Str _ _ m, Tag _ _ _ _ => m
   | _, Str _ _ _ => match a with Attr _ _ _ => true | _ => false end
   | _, _ => true
   end).
Fixpoint pairs_ok (ms : list (member typ)) : bool :=
  match ms with
  | [] => true
  | m :: ms => forallb (pair_ok m) ms && pairs_ok ms
  end.
(** No empty tag names; lists are of simple values or of objects. *)
Fixpoint well_formed (t : typ) : bool :=
  match t with
  | Basic _ | LocalText => true
  | Object _ ms _ =>
      forallb (fun m => match m with
                        | Tag k t _ p => well_formed t && forallb (fun c => negb (String.eqb c "")) (comps_of k t p)
                        | _ => true
                        end) ms && pairs_ok ms
  | ListOf t => match t with Basic _ | Object _ _ _ => well_formed t | _ => false end
  end.

(** ** Values that can be carried *)

(** The characters Python strips *)
Definition white : list N :=
  [9; 10; 11; 12; 13; 28; 29; 30; 31; 32; 133; 160; 5760; 6158;
   8192; 8193; 8194; 8195; 8196; 8197; 8198; 8199; 8200; 8201; 8202; 8232; 8233; 8239; 8287; 12288]%N.
(** Not empty, with no white space around *)
Definition trimmed (t : utext) : Prop :=
  t <> [] /\ (forall c r, t = c :: r -> ~ In c white) /\ (forall r c, t = (r ++ [c])%list -> ~ In c white).
(** The character codes of a byte string *)
Definition codes (s : string) : utext := map N_of_ascii (list_ascii_of_string s).
Definition ascii_only (s : string) : Prop := Forall (fun c => (c < 128)%N) (codes s).

(** A simple value of a tag: nothing, or of the declared type, not zero, and not changed by
    trimming *)
Definition simple (b : basic) (v : value) : Prop :=
  match b, v with
  | _, VNone => True
  | TString, VStr s => ascii_only s /\ trimmed (codes s)
  | TText, VText t => trimmed t
  | (TInteger | TLong), VInt z => z <> 0%Z
  | _, _ => False
  end.
(** ... of an attribute *)
Definition simple_attr (b : basic) (v : value) : Prop :=
  match b, v with
  | _, VNone => True
  | TString, VStr s => ascii_only s /\ s <> ""
  | TText, VText t => t <> []
  | (TInteger | TLong), VInt z => z <> 0%Z
  | _, _ => False
  end.
(** Some text in every language that is there *)
Definition local_text (d : gmap utext (option utext)) : Prop :=
  forall lang c, d !! lang = Some c -> lang <> [] /\ exists t, c = Some t /\ trimmed t.

(** The names of the members, in order, once each *)
Definition add_name (l : list string) (x : string) : list string := if existsb (String.eqb x) l then l else (l ++ [x])%list.
Definition names_of (ms : list (member typ)) : list string := fold_left add_name (map member_name ms) [].

(** What the class itself needs when it is read *)
Definition ready (h : hook) (fields : list (string * value)) : Prop :=
  match h with
  | NoHook => True
  | FirstOfHistory => exists x l, assoc "history" fields = Some (VList (x :: l))
  | BaseOfUri => exists s, assoc "uri" fields = Some (VStr s)
  end.

Fixpoint carried (t : typ) (v : value) : Prop :=
  match t with
  | Basic b => simple b v
  | LocalText => exists d, v = VLocal d /\ local_text d
  | Object _ ms h =>
      v = VNone \/
      exists fields, v = VObj fields /\ map fst fields = names_of ms /\ ready h fields /\
        (fix each (ms : list (member typ)) : Prop :=
           match ms with
           | [] => True
           | m :: ms =>
               (let x := field fields (member_name m) in
                match m with
                | Attr _ b _ => simple_attr b x
                | Str _ b _ => simple b x
                | Tag _ t _ _ => carried t x
                end) /\ each ms
           end) ms
  | ListOf t => exists l, v = VList l /\ Forall (carried t) l
  end.

(** An object of class [t] that can be carried *)
Definition carried_object (t : typ) (o : list (string * value)) : Prop := carried t (VObj o).

(** ** What must be there *)
Definition present (t : typ) (v : value) : Prop :=
  match t with
  | LocalText => exists d, v = VLocal d /\ d <> ∅
  | ListOf _ => exists l, v = VList l /\ l <> []
  | _ => v <> VNone
  end.
Fixpoint complete (t : typ) (v : value) : Prop :=
  match t with
  | Basic _ | LocalText => True
  | Object _ ms _ =>
      match v with
      | VObj fields =>
          (fix each (ms : list (member typ)) : Prop :=
             match ms with
             | [] => True
             | m :: ms =>
                 (let x := field fields (member_name m) in
                  match m with
                  | Attr _ _ mandatory | Str _ _ mandatory => mandatory = true -> x <> VNone
                  | Tag _ t mandatory _ => (mandatory = true -> present t x) /\ complete t x
                  end) /\ each ms
             end) ms
      | _ => True
      end
  | ListOf t => match v with VList l => Forall (fun x => x <> VNone /\ complete t x) l | _ => True end
  end.
Definition complete_object (t : typ) (o : list (string * value)) : Prop := complete t (VObj o).

(** Dictionaries may be iterated in any order. *)
Definition any_order (keys : gmap utext (option utext) -> list utext) : Prop :=
  forall d, NoDup (keys d) /\ forall k, In k (keys d) <-> is_Some (d !! k).

(** A number zero somewhere in a value *)
Inductive zero_inside : value -> Prop :=
| zero_here : zero_inside (VInt 0)
| zero_item x l : In x l -> zero_inside x -> zero_inside (VList l)
| zero_field k x fields : In (k, x) fields -> zero_inside x -> zero_inside (VObj fields).
