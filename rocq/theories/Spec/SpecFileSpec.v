(** * What a spec says about its packages, read off the document *)
From Coq Require Import String ZArith NArith List Bool.
From stdpp Require Import gmap strings.
From Verif Require Import Model.Py Model.Xml Model.Schema Spec.XmlSpec.
Import ListNotations.
Open Scope string_scope.

(** The elements with a tag, inside an element *)
Definition elements (tag : string) (e : node) : list node := List.filter (named tag) (children e).
(** The text of an element without the white space around it; nothing if that is empty *)
Definition text_at (c : node) : option utext :=
  match children c with
  | Data t :: _ => match ustrip t with [] => None | x => Some x end
  | _ => None
  end.
Definition string_of (v : value) (t : utext) : Prop := exists s, v = VStr s /\ codes s = t.

(** The tag is given, with some text *)
Definition given (tag : string) (e : node) : Prop := exists c rest t, elements tag e = c :: rest /\ text_at c = Some t.
(** The tag's text is [v] *)
Definition says (tag : string) (e : node) (v : value) : Prop :=
  match elements tag e with
  | c :: _ => match text_at c with Some t => string_of v t | None => v = VNone end
  | [] => v = VNone
  end.
(** The texts of all elements with the tag are [l] *)
Definition says_all (tag : string) (e : node) (l : list string) : Prop :=
  map text_at (elements tag e) = map (fun s => Some (codes s)) l.
Definition strings (l : list string) : value := VList (map VStr l).
(** The text in each language: that of the last element in the language *)
Definition language (c : node) : utext :=
  match assoc "xml:lang" (attrs c) with Some ((_ :: _) as l) => l | _ => [101; 110]%N (* en *) end.
Definition says_local (tag : string) (e : node) (v : value) : Prop :=
  exists d, v = VLocal d /\
    forall lang, d !! lang = match rev (List.filter (fun c => bool_decide (language c = lang)) (elements tag e)) with
                             | c :: _ => Some (text_at c)
                             | [] => None
                             end.

(** A package [v] that is read from the element [e] of a spec with the source element [src] *)
Definition inherits (src : node) (history : value) (e : node) (v : value) : Prop :=
  exists p alone,
    v = VObj p /\
    (* single values: its own, or else the source's *)
    (forall tag name, In (tag, name) [("PartOf", "partOf"); ("Icon", "icon")] ->
       (given tag e -> says tag e (field p name)) /\ (~ given tag e -> says tag src (field p name))) /\
    (* texts in languages *)
    (forall tag name, In (tag, name) [("Summary", "summary"); ("Description", "description")] ->
       (elements tag e <> [] -> says_local tag e (field p name)) /\ (elements tag e = [] -> says_local tag src (field p name))) /\
    (* licenses *)
    (exists l, field p "license" = strings l /\
       (elements "License" e <> [] -> says_all "License" e l) /\ (elements "License" e = [] -> says_all "License" src l)) /\
    (* kinds: both *)
    (exists l l', field p "isA" = strings (l ++ l') /\ says_all "IsA" e l /\ says_all "IsA" src l') /\
    (* the history of the spec *)
    field p "history" = history /\
    (* the rest as if the package were alone *)
    decode c_Package e = Ok (alone, []) /\
    forall name, ~ In name ["partOf"; "icon"; "summary"; "description"; "license"; "isA"; "history"] -> field p name = field alone name.
