(** * Objects to XML and back

    pisi/exml/autoxml.py, pisi/exml/xmlextpiks.py.  The parser and printer of XML text (the
    piksemel library) are left out: documents are trees. *)
From Coq Require Import String Ascii ZArith NArith List Bool.
From stdpp Require Import gmap strings.
From Verif Require Import Model.Py.
Import ListNotations.
Open Scope string_scope.

(** ** Unicode text: a list of code points *)
Notation utext := (list N).

(** unicode.strip() of Python 2: what counts as white space *)
Definition uspace (c : N) : bool :=
  ((9 <=? c) && (c <=? 13) || (28 <=? c) && (c <=? 32) || (c =? 133) || (c =? 160) || (c =? 5760) || (c =? 6158)
   || (8192 <=? c) && (c <=? 8202) || (c =? 8232) || (c =? 8233) || (c =? 8239) || (c =? 8287) || (c =? 12288))%N.
Fixpoint ulstrip (t : utext) : utext :=
  match t with [] => [] | c :: t' => if uspace c then ulstrip t' else t end.
Definition ustrip (t : utext) : utext := rev (ulstrip (rev (ulstrip t))).

(** unicode(s) of a byte string: the ASCII codec *)
Fixpoint ascii_decode (s : string) : option utext :=
  match s with
  | EmptyString => Some []
  | String a s =>
      if (N_of_ascii a <? 128)%N then match ascii_decode s with Some t => Some (N_of_ascii a :: t) | None => None end
      else None
  end.
(** str(u) of a unicode text: the ASCII codec *)
Fixpoint ascii_encode (t : utext) : option string :=
  match t with
  | [] => Some EmptyString
  | c :: t => if (c <? 128)%N then match ascii_encode t with Some s => Some (String (ascii_of_N c) s) | None => None end
              else None
  end.

(** ** Documents *)
Inductive node :=
| Elem (name : string) (attrs : list (string * utext)) (children : list node)
| Data (text : utext).

Definition children (n : node) : list node := match n with Elem _ _ cs => cs | Data _ => [] end.
Definition attrs (n : node) : list (string * utext) := match n with Elem _ l _ => l | Data _ => [] end.
Definition named (tag : string) (n : node) : bool := match n with Elem t _ _ => String.eqb t tag | Data _ => false end.

(** xmlextpiks.py 51-53: the attribute, or None *)
Fixpoint assoc {A} (name : string) (l : list (string * A)) : option A :=
  match l with
  | [] => None
  | (k, v) :: l => if String.eqb k name then Some v else assoc name l
  end.
Definition getNodeAttribute (n : node) (name : string) : option utext := assoc name (attrs n).
(** Python's dict and setattr: replaces, or adds at the end *)
Fixpoint assign {A} (name : string) (v : A) (l : list (string * A)) : list (string * A) :=
  match l with
  | [] => [(name, v)]
  | (k, w) :: l => if String.eqb k name then (k, v) :: l else (k, w) :: assign name v l
  end.
(** xmlextpiks.py 55-57 *)
Definition setNodeAttribute (n : node) (name : string) (v : utext) : node :=
  match n with Elem t l cs => Elem t (assign name v l) cs | Data _ => n end.

(** xmlextpiks.py 63-64 *)
Definition getTagByName (n : node) (tag : string) : list node := List.filter (named tag) (children n).
(** xmlextpiks.py 36-49 *)
Definition getAllNodes (n : node) (path : list string) : list node :=
  fold_left (fun nodes tag => flat_map (fun x => getTagByName x tag) nodes) path [n].
(** xmlextpiks.py 92-113: the first match of each step of the path *)
Fixpoint getNode (n : node) (path : list string) : option node :=
  match path with
  | [] => Some n
  | tag :: path => match getTagByName n tag with [] => None | c :: _ => getNode c path end
  end.
(** xmlextpiks.py 66-82: XmlError is not defined *)
Definition getNodeText (n : node) : res (option utext) :=
  match children n with
  | [] => Ok None
  | Data t :: _ => Ok (Some (ustrip t))
  | Elem _ _ _ :: _ => Err EName
  end.

(** insertNode, insertTag, insertData of piksemel: at the end.  Simplification: the node put in is
    a copy. *)
Definition insertNode (n c : node) : node :=
  match n with Elem t l cs => Elem t l (cs ++ [c])%list | Data _ => n end.

(** What encoding does to a node: the changed node and the complaints, or an exception *)
Inductive complaint :=
| NoToken (token : string)          (* Mandatory token %s not available *)
| Mismatch                          (* Type mismatch: read text cannot be decoded *)
| NoArgument                        (* Mandatory argument not available *)
| EmptyList                         (* Mandatory list empty *)
| NoLocalText (tag : string)        (* At least one '%s' tag should have local text *)
| EmptyLocal (tag : string)         (* '%s' language of tag '%s' is empty *)
| WrongType (token : string)        (* Type mismatch. Expected %s, got %s *)
| NoVariable (name : string)        (* Mandatory variable %s not available *)
| NoLanguage.                       (* Tag should have at least the current locale, ... *)
Notation effect := (res (node * list complaint)).

(** xmlextpiks.py 115-129: a new chain of tags; [f] is what is done to the last of them *)
Fixpoint addTagPath (tags : list string) (f : node -> effect) (n : node) : effect :=
  match tags with
  | [] => f n
  | t :: tags => r <- addTagPath tags f (Elem t [] []) ;; Ok (insertNode n (fst r), snd r)
  end.
(** [f] on the last child named [tag] *)
Fixpoint update_last (tag : string) (f : node -> effect) (cs : list node) : res (list node * list complaint) :=
  match cs with
  | [] => Ok ([], [])
  | c :: cs =>
      if existsb (named tag) cs then r <- update_last tag f cs ;; Ok (c :: fst r, snd r)
      else if named tag c then r <- f c ;; Ok (fst r :: cs, snd r)
      else Ok (c :: cs, [])
  end.
(** xmlextpiks.py 131-164 with branch=False: along the last match of each tag, and a new chain
    from where there is none; [f] is what is done to the node at the end.  (branch=True is used
    with single tags, for which it is addTagPath.) *)
Fixpoint addNode (tags : list string) (f : node -> effect) (n : node) : effect :=
  match tags with
  | [] => f n
  | t :: rest =>
      if existsb (named t) (children n) then
        match n with
        | Elem name l cs => r <- update_last t (addNode rest f) cs ;; Ok (Elem name l (fst r), snd r)
        | Data _ => Ok (n, [])
        end
      else addTagPath tags f n
  end.
(** xmlextpiks.py 166-168 *)
Definition addText (n : node) (t : utext) : node := insertNode n (Data t).

(** ** Classes *)

(** autoxml.py 58-62.  Float is left out: no class uses it. *)
Inductive basic := TString | TText | TInteger | TLong.

(** Hooks that run after decoding: metadata.py 54-56 and specfile.py 139-140.  The attributes they
    set are left out. *)
Inductive hook := NoHook | FirstOfHistory | BaseOfUri.

(** t_, a_ and s_ declarations: token, type, mandatory, and for tags the path *)
Inductive member (T : Type) :=
| Attr (token : string) (b : basic) (mandatory : bool)
| Str (token : string) (b : basic) (mandatory : bool)
| Tag (token : string) (t : T) (mandatory : bool) (path : option string).
Arguments Attr {T}. Arguments Str {T}. Arguments Tag {T}.

(** What may be declared.  A class is its tag and its members in the order they are processed
    (autoxml.py 277-315: the s_ member first), those of its bases before its own (341-371). *)
Inductive typ :=
| Basic (b : basic)
| LocalText
| Object (tag : string) (members : list (member typ)) (h : hook)
| ListOf (t : typ).

(** Values of attributes *)
Inductive value :=
| VNone
| VStr (s : string)
| VText (t : utext)
| VInt (z : Z)
| VLocal (d : gmap utext (option utext))
| VList (l : list value)
| VObj (fields : list (string * value)).

(** autoxml.py 573-582 *)
Definition lower (a : ascii) : ascii := if is_upper a then ascii_of_nat (nat_of_ascii a + 32) else a.
Definition mixed_case (token : string) : string :=
  match token with EmptyString => EmptyString | String a s => String (lower a) s end.
Definition member_token {T} (m : member T) : string := match m with Attr k _ _ | Str k _ _ | Tag k _ _ _ => k end.
Definition member_name {T} (m : member T) : string := mixed_case (member_token m).

(** autoxml.py 592-613 and 724-725: the path of a list *)
Definition list_path (token : string) (t : typ) (path : option string) : list string :=
  match path with
  | Some p => py_split "/" p
  | None => match t with Object tag _ _ => py_split "/" (token ++ "/" ++ tag) | _ => py_split "/" token end
  end.

(** Python truth *)
Definition truth (v : value) : bool :=
  match v with
  | VNone => false
  | VStr s => negb (String.eqb s "")
  | VText t => match t with [] => false | _ => true end
  | VInt z => negb (z =? 0)%Z
  | VLocal d => negb (bool_decide (d = ∅))
  | VList l => match l with [] => false | _ => true end
  | VObj _ => true
  end.

(** unicode(value), for the values of basic types *)
Definition to_unicode (v : value) : res utext :=
  match v with
  | VStr s => match ascii_decode s with Some t => Ok t | None => Err EValue end
  | VText t => Ok t
  | VInt z => match ascii_decode (str_of_Z z) with Some t => Ok t | None => Err EValue end
  | _ => Err EType
  end.
(** autoxml.py 840-850.  Simplification: int and long know ASCII digits only, and long no final L. *)
Definition from_text (b : basic) (t : utext) : option value :=
  match b with
  | TString => match ascii_encode t with Some s => Some (VStr s) | None => None end
  | TText => Some (VText t)
  | TInteger | TLong =>
      match ascii_encode t with
      | Some s => match py_int s with Ok z => Some (VInt z) | Err _ => None end
      | None => None
      end
  end.

(** ** Encoding *)

(** autoxml.py 647-653 *)
Definition encode_basic (token : string) (mandatory : bool) (writetext : utext -> node -> node) (v : value) (n : node) : effect :=
  if truth v then t <- to_unicode v ;; Ok (writetext t n, [])
  else Ok (n, if mandatory then [NoToken token] else []).
(** autoxml.py 497-499 *)
Definition write_tag (token : string) (t : utext) (n : node) : node := insertNode n (addText (Elem token [] []) t).

(** Running one effect after the other *)
Definition then_ (r : effect) (f : node -> effect) : effect :=
  x <- r ;; y <- f (fst x) ;; Ok (fst y, snd x ++ snd y)%list.

Section encoding.
  (** The order in which a dictionary is iterated *)
  Variable keys : gmap utext (option utext) -> list utext.

  (** autoxml.py 97-102 *)
  Fixpoint encode_local (tag : string) (d : gmap utext (option utext)) (ks : list utext) (n : node) : effect :=
    match ks with
    | [] => Ok (n, [])
    | k :: ks =>
        match d !! k with
        | Some (Some t) =>
            encode_local tag d ks (insertNode n (addText (setNodeAttribute (Elem tag [] []) "xml:lang" k) t))
        | Some None => Err EAttribute
        | None => Err EKey
        end
    end.

  (** autoxml.py 542-548: hasattr, getattr *)
  Definition field (fields : list (string * value)) (name : string) : value :=
    match assoc name fields with Some v => v | None => VNone end.

  (** autoxml.py 615-660, 694-707, 752-763, 815-826: one tag of the given type *)
  Fixpoint encode_tag (t : typ) (token : string) (mandatory : bool) (path : option string) (v : value) (n : node) {struct t} : effect :=
    match t with
    | Basic b => encode_basic token mandatory (write_tag token) v n
    | LocalText =>
        match v with
        | VLocal d => if truth v then encode_local token d (keys d) n else Ok (n, if mandatory then [NoArgument] else [])
        | VNone => Ok (n, if mandatory then [NoArgument] else [])
        | _ => Err EAttribute
        end
    | Object _ ms _ =>
        match v with
        | VObj fields =>
            r <- (fix encode_members (ms : list (member typ)) (n : node) : effect :=
                    match ms with
                    | [] => Ok (n, [])
                    | m :: ms =>
                        then_ (let v := field fields (member_name m) in
                               match m with
                               | Attr token b mandatory => encode_basic token mandatory (fun t n => setNodeAttribute n token t) v n
                               | Str token b mandatory => encode_basic token mandatory (fun t n => addText n t) v n
                               | Tag token t mandatory path => encode_tag t token mandatory path v n
                               end)
                              (encode_members ms)
                    end) ms (Elem token [] []) ;;
            Ok (insertNode n (fst r), snd r)
        | VNone => Ok (n, if mandatory then [NoArgument] else [])
        | _ => Err EAttribute
        end
    | ListOf t =>
        match v with
        | VList ((_ :: _) as l) =>
            let comps := list_path token t path in
            let item := encode_tag t (List.last comps "") true None in
            (fix encode_items (l : list value) (n : node) : effect :=
               match l with
               | [] => Ok (n, [])
               | x :: l =>
                   then_ (if String.eqb (py_join "/" (removelast comps)) "" then item x n
                          else addNode (removelast comps) (item x) n)
                         (encode_items l)
               end) l n
        | VList [] | VNone => Ok (n, if mandatory then [EmptyList] else [])
        | _ => Err EType
        end
    end.

  (** autoxml.py 468-480, 511-523, 542-548 *)
  Definition encode_member (fields : list (string * value)) (m : member typ) (n : node) : effect :=
    let v := field fields (member_name m) in
    match m with
    | Attr token b mandatory => encode_basic token mandatory (fun t n => setNodeAttribute n token t) v n
    | Str token b mandatory => encode_basic token mandatory (fun t n => addText n t) v n
    | Tag token t mandatory path => encode_tag t token mandatory path v n
    end.
  (** autoxml.py 352-358; no class has an encode_hook *)
  Fixpoint encode_members (fields : list (string * value)) (ms : list (member typ)) (n : node) : effect :=
    match ms with
    | [] => Ok (n, [])
    | m :: ms => then_ (encode_member fields m n) (encode_members fields ms)
    end.
End encoding.

(** ** Decoding *)

(** autoxml.py 628-645 *)
Definition decode_basic (token : string) (b : basic) (mandatory : bool) (text : option utext) : value * list complaint :=
  match text with
  | Some ((_ :: _) as t) => match from_text b t with Some v => (v, []) | None => (VNone, [Mismatch]) end
  | _ => (VNone, if mandatory then [NoToken token] else [])
  end.
(** xmlextpiks.py 68-71 *)
Definition text_of (n : option node) : res (option utext) := match n with None => Ok None | Some n => getNodeText n end.

(** autoxml.py 86-95 *)
Fixpoint decode_local (tag : string) (nodes : list node) (d : gmap utext (option utext)) : res (gmap utext (option utext) * list complaint) :=
  match nodes with
  | [] => Ok (d, [])
  | n :: nodes =>
      c <- getNodeText n ;;
      let lang := match getNodeAttribute n "xml:lang" with
                  | Some ((_ :: _) as t) => t
                  | _ => [101; 110]%N (* 'en' *)
                  end in
      r <- decode_local tag nodes (<[ lang := c ]> d) ;;
      Ok (fst r, (match c with Some (_ :: _) => [] | _ => [EmptyLocal tag] end ++ snd r)%list)
  end.

(** The hooks *)
Definition run_hook (h : hook) (fields : list (string * value)) : res unit :=
  match h with
  | NoHook => Ok tt
  | FirstOfHistory => match assoc "history" fields with Some (VList (_ :: _)) => Ok tt | _ => Err EIndex end
  | BaseOfUri => match assoc "uri" fields with Some (VStr _) => Ok tt | _ => Err EAttribute end
  end.

(** autoxml.py 628-645, 680-692, 737-750, 802-813: one tag of the given type *)
Fixpoint decode_tag (t : typ) (token : string) (mandatory : bool) (path : option string) (n : node) {struct t} : res (value * list complaint) :=
  match t with
  | Basic b => text <- text_of (getNode n [token]) ;; Ok (decode_basic token b mandatory text)
  | LocalText =>
      match getAllNodes n [token] with
      | [] => Ok (VLocal ∅, if mandatory then [NoLocalText token] else [])
      | nodes => r <- decode_local token nodes ∅ ;; Ok (VLocal (fst r), snd r)
      end
  | Object _ ms h =>
      match getNode n [token] with
      | None => Ok (VNone, if mandatory then [NoArgument] else [])
      | Some n =>
          r <- (fix decode_members (ms : list (member typ)) (fields : list (string * value)) : res (list (string * value) * list complaint) :=
                  match ms with
                  | [] => Ok (fields, [])
                  | m :: ms =>
                      x <- match m with
                           | Attr token b mandatory => Ok (decode_basic token b mandatory (getNodeAttribute n token))
                           | Str token b mandatory => text <- getNodeText n ;; Ok (decode_basic token b mandatory text)
                           | Tag token t mandatory path => decode_tag t token mandatory path n
                           end ;;
                      r <- decode_members ms (assign (member_name m) (fst x) fields) ;;
                      Ok (fst r, snd x ++ snd r)%list
                  end) ms [] ;;
          _ <- run_hook h (fst r) ;;
          Ok (VObj (fst r), snd r)
      end
  | ListOf t =>
      let comps := list_path token t path in
      let nodes := getAllNodes n comps in
      r <- (fix decode_items (nodes : list node) : res (list value * list complaint) :=
              match nodes with
              | [] => Ok ([], [])
              | x :: nodes =>
                  v <- decode_tag t (List.last comps "") true None (insertNode (Elem "Dummy" [] []) x) ;;
                  r <- decode_items nodes ;;
                  Ok (fst v :: fst r, snd v ++ snd r)%list
              end) nodes ;;
      Ok (VList (fst r), ((match nodes with [] => if mandatory then [EmptyList] else [] | _ => [] end) ++ snd r)%list)
  end.

(** autoxml.py 537-540 *)
Definition decode_member (n : node) (m : member typ) : res (value * list complaint) :=
  match m with
  | Attr token b mandatory => Ok (decode_basic token b mandatory (getNodeAttribute n token))
  | Str token b mandatory => text <- getNodeText n ;; Ok (decode_basic token b mandatory text)
  | Tag token t mandatory path => decode_tag t token mandatory path n
  end.
(** autoxml.py 342-348.  The members set here were set by the constructor before (329-330): each is
    overwritten. *)
Fixpoint decode_members (n : node) (ms : list (member typ)) (fields : list (string * value)) : res (list (string * value) * list complaint) :=
  match ms with
  | [] => Ok (fields, [])
  | m :: ms =>
      x <- decode_member n m ;;
      r <- decode_members n ms (assign (member_name m) (fst x) fields) ;;
      Ok (fst r, snd x ++ snd r)%list
  end.

(** ** Objects and documents *)
Definition members_of (t : typ) : list (member typ) := match t with Object _ ms _ => ms | _ => [] end.
Definition hook_of (t : typ) : hook := match t with Object _ _ h => h | _ => NoHook end.

(** obj.encode(node, errs) *)
Definition encode (keys : gmap utext (option utext) -> list utext) (t : typ) (o : list (string * value)) (n : node) : effect :=
  encode_members keys o (members_of t) n.
(** obj.decode(node, errs) *)
Definition decode (t : typ) (n : node) : res (list (string * value) * list complaint) :=
  r <- decode_members n (members_of t) [] ;;
  _ <- run_hook (hook_of t) (fst r) ;;
  Ok r.
