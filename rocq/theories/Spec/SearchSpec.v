(** * Vocabulary for searching *)
From Coq Require Import String Ascii ZArith List.
From stdpp Require Import gmap strings.
From Verif Require Import Model.Py Model.ItemByRepo Model.Package Model.Search Model.Databases Model.SearchOps
  Spec.ItemByRepoSpec Spec.DatabaseSpec.
Open Scope string_scope.

(** ** Text *)

(** Whitespace, and the punctuation characters of ASCII. *)
Definition separators : string :=
  String " " (String (ascii_of_nat 9) (String (ascii_of_nat 10) (String (ascii_of_nat 11)
    (String (ascii_of_nat 12) (String (ascii_of_nat 13) "!""#$%&'()*+,-./:;<=>?@[\]^_`{|}~"))))).
Definition separator (c : ascii) : Prop := In c (list_ascii_of_string separators).
Definition all_separators (s : string) : Prop := Forall separator (list_ascii_of_string s).
Definition word (s : string) : Prop := s <> "" /\ Forall (fun c => ~ separator c) (list_ascii_of_string s).

(** [words_of ts s]: [s] is the words [ts] in this order, with separators around them and at
    least one separator between neighbours. *)
Inductive words_of : list string -> string -> Prop :=
| words_none g : all_separators g -> words_of [] g
| words_more g t ts rest :
    all_separators g -> word t -> (rest = "" \/ exists c r, rest = String c r /\ separator c) ->
    words_of ts rest -> words_of (t :: ts) (g +:+ t +:+ rest).

(** Equal up to the case of ASCII letters *)
Definition uppers : string := "ABCDEFGHIJKLMNOPQRSTUVWXYZ".
Definition lowers : string := "abcdefghijklmnopqrstuvwxyz".
Definition letter_pair (a b : ascii) : Prop := exists i, String.get i uppers = Some a /\ String.get i lowers = Some b.
Definition same_letter (a b : ascii) : Prop := a = b \/ letter_pair a b \/ letter_pair b a.
Definition same_but_case (s t : string) : Prop := Forall2 same_letter (list_ascii_of_string s) (list_ascii_of_string t).

(** ** Index histories *)
Inductive iop :=
| IAdd (doc : string) (terms : list string) (q : rarg)
| IDel (doc : string) (terms : list string) (q : rarg).
Definition apply_iop (order : list string) (d : index) (o : iop) : res index :=
  match o with
  | IAdd doc ts q => add_doc order d doc ts q
  | IDel doc ts q => remove_doc order d doc ts q
  end.
Definition iop_place (o : iop) : rarg := match o with IAdd _ _ q | IDel _ _ q => q end.

(** [has_word h doc t q]: after the operations [h] (oldest first) the document has the term
    in place [q], that is, the last operation on it was an addition. *)
Definition about (o : iop) (doc t : string) (q : rarg) : Prop :=
  match o with IAdd d ts p | IDel d ts p => d = doc /\ In t ts /\ p = q end.
Definition has_word (h : list iop) (doc t : string) (q : rarg) : Prop :=
  exists h1 ts h2, h = (h1 ++ IAdd doc ts q :: h2)%list /\ In t ts /\
    forall o, In o h2 -> ~ about o doc t q.

(** The places a query looks in *)
Definition searched (order : list string) (r q : rarg) : Prop :=
  (exists n, q = RName n /\ In n order) \/ r = RAll /\ (q = RThird \/ q = RInst).

(** ** Searching the system *)

(** A package a search in [q] alone could return, for some index, language and text *)
Definition findable (s : dbs) (q : rarg) (doc : string) : Prop :=
  exists id lang t docs, In id ["summary"; "description"] /\ In lang ["en"; "tr"] /\
    get_term (order_of s) (default ∅ (db_idx s !! (id, lang))) t q = Ok docs /\ doc ∈ docs.

(** [p]'s text [id] in language [lang] has the term *)
Definition mentions (p : package) (id lang t : string) : Prop :=
  exists text, In t (preprocess lang text) /\ In lang ["en"; "tr"] /\
    (id = "summary" /\ In (lang, text) (p_summary p) \/ id = "description" /\ In (lang, text) (p_description p)).

(** Histories in which an update of a repository keeps every package ever searchable there,
    a repository is not re-added under an old name, and packages are recorded once. *)
Definition search_careful (s : dbs) (o : dbop) : Prop :=
  match o with
  | OAddRepo n _ _ => forall doc, ~ findable s (RName n) doc
  | OUpdateRepo n ix => forall doc, findable s (RName n) doc -> In doc (map p_name (ix_packages ix))
  | OInstalled p => unrecorded s (p_name p) RInst
  | OThirdParty p => unrecorded s (p_name p) RThird
  | _ => True
  end.
