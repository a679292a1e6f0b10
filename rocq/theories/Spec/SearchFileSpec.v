(** * Vocabulary for "search-file tells whose file it is" *)
From Coq Require Import String Ascii ZArith List.
From stdpp Require Import gmap strings.
From Verif Require Import Spec.ContentsSpec Model.Py Model.InstallDB Model.Fs Model.System Model.SearchFile Spec.SystemSpec.
Import ListNotations.
Open Scope string_scope.

(** ** Places *)
(** Following symbolic links *)
Inductive leads (f : fs) : nat -> string -> string -> Prop :=
| leads_here p : (forall t, node_at f p <> Some (NLink t)) -> leads f 0 p p
| leads_on n p t r : node_at f p = Some (NLink t) -> leads f n t r -> leads f (S n) p r.
(** [p] leads to [r], where something is; the system follows at most forty links *)
Definition arrives (f : fs) (p r : string) : Prop := exists n, n <= 40 /\ leads f n p r /\ node_at f r <> None.
Definition plain_names (ns : list string) : Prop := List.Forall (fun n => good_name n /\ n <> "." /\ n <> "..") ns.
(** ./usr/./lib is usr/lib *)
Inductive undotted : list string -> list string -> Prop :=
| undotted_end : undotted [] []
| undotted_dot ns ms : undotted ns ms -> undotted ("." :: ns) ms
| undotted_name n ns ms : undotted ns ms -> undotted (n :: ns) (n :: ms).
(** The argument [a] is the path [p], written from the root or from the current directory *)
Definition addressed (cwd a p : string) : Prop :=
  exists ns ms, undotted ns ms /\ ms <> [] /\ plain_names ms /\
    (a = text ns /\ p = text ms \/
     a = short ns /\ exists cs, plain_names cs /\ (cs <> [] /\ cwd = text cs \/ cs = [] /\ cwd = "/") /\ p = text (cs ++ ms)).
Definition without_slashes (x q : string) : Prop :=
  exists s, (forall c, In c (list_ascii_of_string s) -> c = "/"%char) /\ x = s ++ q /\ forall t, q <> "/" ++ t.
(** The place that is asked about: the one [a] leads to if there is something, and the one of that
    name otherwise *)
Definition asked (f : fs) (cwd a q : string) : Prop :=
  exists p, addressed cwd a p /\
    ((exists r, arrives f p r /\ without_slashes r q) \/ (~ exists r, arrives f p r) /\ without_slashes a q).

(** ** Answers *)
Definition tells (s : sys) (f : fs) (cwd : string) (long : bool) (a : string) (ls : list line) : Prop :=
  exists q, asked f cwd a q /\
    ((exists n e files, owner s q n /\ is_installed (y_inst s) n = true /\ list_of s n = Ok files /\ In e files /\ f_path e = q /\
        ls = Searching a :: Has n q :: if long then [Details (f_type e) (f_hash e)] else []) \/
     (forall n, ~ owner s q n) /\ ls = [Searching a; Nobody q]).
Definition places (ls : list line) : list string := flat_map (fun l => match l with Has _ q => [q] | _ => [] end) ls.

(** ** Patterns *)
Inductive part :=
| Is (c : ascii)
| AnyOne
| Anything
| OneOf (but : bool) (items : list (ascii * ascii)).     (* one character from these ranges, or one but these *)
Definition before (a b : ascii) : Prop := (N_of_ascii a <= N_of_ascii b)%N.
Definition among (c : ascii) (items : list (ascii * ascii)) : Prop :=
  exists x y, In (x, y) items /\ before x c /\ before c y.
Inductive fits : list part -> string -> Prop :=
| fits_end : fits [] ""
| fits_is c ps s : fits ps s -> fits (Is c :: ps) (String c s)
| fits_one c ps s : fits ps s -> fits (AnyOne :: ps) (String c s)
| fits_any t ps s : fits ps s -> fits (Anything :: ps) (t ++ s)
| fits_of c items ps s : among c items -> fits ps s -> fits (OneOf false items :: ps) (String c s)
| fits_but c items ps s : ~ among c items -> fits ps s -> fits (OneOf true items :: ps) (String c s).
(** How they are written: c, ?, *, [a-z_], [!0-9] *)
Definition good_item (i : ascii * ascii) : Prop :=
  before (fst i) (snd i) /\ fst i <> "-"%char /\ fst i <> "]"%char /\ snd i <> "]"%char.
Definition item_text (i : ascii * ascii) : string :=
  if Ascii.eqb (fst i) (snd i) then String (fst i) "" else String (fst i) (String "-" (String (snd i) "")).
Definition items_text (is_ : list (ascii * ascii)) : string := fold_right (fun i s => item_text i ++ s) "" is_.
Inductive written : list part -> string -> Prop :=
| written_end : written [] ""
| written_is c ps s : c <> "*"%char -> c <> "?"%char -> c <> "["%char -> written ps s -> written (Is c :: ps) (String c s)
| written_one ps s : written ps s -> written (AnyOne :: ps) (String "?" s)
| written_any ps s : written ps s -> written (Anything :: ps) (String "*" s)
| written_of x y items ps s : x <> "!"%char -> List.Forall good_item ((x, y) :: items) -> written ps s ->
    written (OneOf false ((x, y) :: items) :: ps) ("[" ++ items_text ((x, y) :: items) ++ "]" ++ s)
| written_but i items ps s : List.Forall good_item (i :: items) -> written ps s ->
    written (OneOf true (i :: items) :: ps) ("[!" ++ items_text (i :: items) ++ "]" ++ s).
