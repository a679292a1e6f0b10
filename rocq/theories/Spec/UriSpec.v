(** * Addresses, as users write them *)
From Coq Require Import String Ascii ZArith List Bool.
From Verif Require Import Model.Py Model.Search Model.Uri Spec.PathSpec.
Import ListNotations.
Open Scope string_scope.

(** ** Parts *)
(** Letters, digits, plus, minus and dot *)
Definition scheme_text (s : string) : Prop := s <> "" /\ forall c, In c (list_ascii_of_string s) -> is_letter c = true \/ is_digit c = true \/ In c ["+"; "-"; "."]%char.
(** No brackets, or both: [::1]:8080 *)
Definition host_text (h : string) : Prop := (forall c, In c ["/"; "?"; "#"]%char -> free_of c h) /\ (free_of "[" h <-> free_of "]" h).
(** A path on a server: nothing, or a slash and more *)
Definition path_text (p : string) : Prop := (p = "" \/ exists r, p = "/" ++ r) /\ forall c, In c ["?"; "#"; ";"]%char -> free_of c p.
(** What is after the last slash *)
Definition last_name (p n : string) : Prop := free_of "/" n /\ (p = n \/ exists d, p = d ++ "/" ++ n).
(** A path on this machine; a colon only after a slash *)
Definition local_text (p : string) : Prop :=
  (forall c, In c ["?"; "#"]%char -> free_of c p) /\ ~ (exists r, p = "//" ++ r) /\
  (forall a b, p = a ++ ":" ++ b -> ~ free_of "/" a).

(** ** The file of mirrors *)
Definition blank (s : string) : Prop := forall c, In c (list_ascii_of_string s) -> is_space c = true.
Definition word (s : string) : Prop := s <> "" /\ forall c, In c (list_ascii_of_string s) -> is_space c = false.
(** A line that is no comment and has two words, a name and an address *)
Definition says (line name url : string) : Prop :=
  ~ (exists r, line = "#" ++ r) /\ word name /\ word url /\ exists a b c, blank a /\ blank b /\ b <> "" /\ blank c /\ line = a ++ name ++ b ++ url ++ c.
(** The addresses listed under a name, in the order of the lines *)
Inductive listed (name : string) : list string -> list string -> Prop :=
| listed_none : listed name [] []
| listed_line line url lines urls : says line name url -> listed name lines urls -> listed name (line :: lines) (url :: urls)
| listed_other line lines urls : (forall url, ~ says line name url) -> listed name lines urls -> listed name (line :: lines) urls.

(** ** Addresses at a mirror *)
Definition at_mirror (url path address : string) : Prop :=
  (ends_in_slash url /\ address = url ++ path) \/ (~ ends_in_slash url /\ address = url ++ "/" ++ path).
(** http://ftp.example.org/pub *)
Definition mirror_url (url : string) : Prop :=
  exists s h p, url = s ++ "://" ++ h ++ p /\ scheme_text s /\ py_lower s <> "file" /\ s <> "mirrors" /\ h <> "" /\ host_text h /\ path_text p.
(** dir/name-1.0.tar.gz *)
Definition mirror_file (path name : string) : Prop :=
  name <> "" /\ last_name path name /\ ~ (exists r, path = "/" ++ r) /\ forall c, In c ["?"; "#"; ";"]%char -> free_of c path.
