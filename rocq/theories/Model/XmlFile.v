(** * Reading and writing documents, and what reading a spec adds *)
From Coq Require Import String ZArith NArith List Bool.
From stdpp Require Import gmap strings.
From Verif Require Import Model.Py Model.Xml Model.Schema.
Import ListNotations.
Open Scope string_scope.

(** isinstance(value, token_type).  Simplification: int and long are not told apart. *)
Definition of_basic (b : basic) (v : value) : bool :=
  match b, v with
  | TString, VStr _ | TText, VText _ | TInteger, VInt _ | TLong, VInt _ => true
  | _, _ => false
  end.
(** autoxml.py 655-660 *)
Definition basic_errors (token : string) (b : basic) (v : value) : list complaint :=
  if truth v && negb (of_basic b v) then [WrongType token] else [].
Definition english : utext := [101; 110]%N.
Definition turkish : utext := [116; 114]%N.
(** autoxml.py 118-124; [lang] is get_lang() of 105-116 *)
Definition local_errors (lang : utext) (d : gmap utext (option utext)) : list complaint :=
  if existsb (fun l => bool_decide (is_Some (d !! l))) [lang; english; turkish] then [] else [NoLanguage].

Definition and_then (r : res (list complaint)) (k : res (list complaint)) : res (list complaint) :=
  x <- r ;; y <- k ;; Ok (x ++ y)%list.

(** autoxml.py 655-660, 709-710, 765-771, 828-829: validating one value *)
Fixpoint errors_value (lang : utext) (token : string) (t : typ) (v : value) {struct t} : res (list complaint) :=
  match t with
  | Basic b => Ok (basic_errors token b v)
  | LocalText => match v with VLocal d => Ok (local_errors lang d) | _ => Err EAttribute end
  | Object _ ms _ =>
      match v with
      | VObj fields =>
          (fix errors_members (ms : list (member typ)) : res (list complaint) :=
             match ms with
             | [] => Ok []
             | m :: ms =>
                 and_then
                   (let v := field fields (member_name m) in
                    match v with
                    | VNone => Ok (if (match m with Attr _ _ x | Str _ _ x | Tag _ _ x _ => x end) then [NoVariable (member_name m)] else [])
                    | _ => match m with
                           | Attr k b _ | Str k b _ => Ok (basic_errors k b v)
                           | Tag k t _ _ => errors_value lang k t v
                           end
                    end)
                   (errors_members ms)
             end) ms
      | _ => Err EAttribute
      end
  | ListOf t =>
      match v with
      | VList l =>
          (fix errors_items (l : list value) : res (list complaint) :=
             match l with
             | [] => Ok []
             | x :: l => and_then (errors_value lang token t x) (errors_items l)
             end) l
      | _ => Err EType
      end
  end.
(** autoxml.py 361-371, 550-559: obj.errors() *)
Definition errors (lang : utext) (t : typ) (o : list (string * value)) : res (list complaint) := errors_value lang "" t (VObj o).

Definition no_errors (r : res (list complaint)) : res unit :=
  errs <- r ;; match errs with [] => Ok tt | _ => Err EError end.

(** autoxml.py 445-461 and xmlfilepiks.newDocument.  Simplification: the document is the tree; bytes,
    compression, checksums and signatures are left out. *)
Definition write (keys : gmap utext (option utext) -> list utext) (lang : utext) (t : typ) (o : list (string * value)) : res node :=
  _ <- no_errors (errors lang t o) ;;
  r <- encode keys t o (Elem (match t with Object tag _ _ => tag | _ => "" end) [] []) ;;
  match snd r with [] => Ok (fst r) | _ => Err EError end.

(** autoxml.py 421-443.  [read_hook] is the identity for classes without one. *)
Definition read (read_hook : list (string * value) -> res (list (string * value))) (lang : utext) (t : typ) (n : node) : res (list (string * value)) :=
  r <- decode t n ;;
  match snd r with
  | [] =>
      o <- read_hook (fst r) ;;
      _ <- no_errors (errors lang t o) ;;
      Ok o
  | _ => Err EError
  end.
Definition no_hook (o : list (string * value)) : res (list (string * value)) := Ok o.

(** ** specfile.py 237-284 *)
Definition as_object (v : value) : res (list (string * value)) := match v with VObj o => Ok o | _ => Err EAttribute end.
Definition as_list (v : value) : res (list value) := match v with VList l => Ok l | _ => Err EType end.
(** self.history[0] *)
Definition first_update (history : value) : res (list (string * value)) :=
  l <- as_list history ;; match l with x :: _ => as_object x | [] => Err EIndex end.
Fixpoint for_each {A B} (f : A -> res B) (l : list A) : res (list B) :=
  match l with
  | [] => Ok []
  | x :: l => y <- f x ;; ys <- for_each f l ;; Ok (y :: ys)
  end.
(** specfile.py 254-257 *)
Definition from_history (history : value) (name : string) (source : list (string * value)) : res (list (string * value)) :=
  if truth (field source name) then Ok source
  else u <- first_update history ;; Ok (assign name (field u name) source).
(** specfile.py 261-262 *)
Definition merge_package (source : list (string * value)) (history : value) (v : value) : res value :=
  p <- as_object v ;;
  own <- as_list (field p "isA") ;;
  more <- as_list (field source "isA") ;;
  Ok (VObj (assign "history" history (assign "isA" (VList (own ++ more)) p))).
(** specfile.py 242-264 *)
Definition merge_tags (o : list (string * value)) : res (list (string * value)) :=
  let history := field o "history" in
  source <- as_object (field o "source") ;;
  source <- Ok (assign "history" history source) ;;
  source <- from_history history "version" source ;;
  source <- from_history history "release" source ;;
  packages <- as_list (field o "packages") ;;
  packages <- for_each (merge_package source history) packages ;;
  Ok (assign "packages" (VList packages) (assign "source" (VObj source) o)).
(** One of the five tests of 273-282 *)
Definition override (source : list (string * value)) (p : list (string * value)) (name : string) : list (string * value) :=
  if truth (field p name) then p else assign name (field source name) p.
Definition overridden : list string := ["summary"; "description"; "partOf"; "license"; "icon"].
(** specfile.py 266-284 *)
Definition override_tags (o : list (string * value)) : res (list (string * value)) :=
  source <- as_object (field o "source") ;;
  packages <- as_list (field o "packages") ;;
  packages <- for_each (fun v => p <- as_object v ;; Ok (VObj (fold_left (override source) overridden p))) packages ;;
  Ok (assign "packages" (VList packages) o).
(** specfile.py 237-240 *)
Definition spec_read_hook (o : list (string * value)) : res (list (string * value)) :=
  o <- merge_tags o ;; override_tags o.
(** SpecFile.read *)
Definition read_spec (lang : utext) (n : node) : res (list (string * value)) := read spec_read_hook lang c_SpecFile n.
