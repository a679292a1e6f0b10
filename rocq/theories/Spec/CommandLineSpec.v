(** * What a command line says *)
From Coq Require Import String Ascii ZArith List Bool.
From stdpp Require Import gmap strings.
From Verif Require Import Model.Py Model.Ops Model.CommandLine Spec.PathSpec.
Import ListNotations.
Open Scope string_scope.

(** ** The parts of a command line *)
Inductive item :=
| Word (w : string)                                    (* WORD *)
| Long (name : string)                                 (* --name *)
| LongIs (name value : string)                         (* --name=value *)
| LongNext (name value : string)                       (* --name value *)
| Short (flags : string)                               (* -abc *)
| ShortIs (flags : string) (c : ascii) (value : string)     (* -abcVALUE *)
| ShortNext (flags : string) (c : ascii) (value : string).  (* -abc VALUE *)
Definition spelled (i : item) : list string :=
  match i with
  | Word w => [w]
  | Long n => ["--" ++ n]
  | LongIs n x => ["--" ++ n ++ "=" ++ x]
  | LongNext n x => ["--" ++ n; x]
  | Short fs => ["-" ++ fs]
  | ShortIs fs c x => ["-" ++ fs ++ String c x]
  | ShortNext fs c x => ["-" ++ fs ++ String c ""; x]
  end.
Definition word (i : item) : list string := match i with Word w => [w] | _ => [] end.

(** A word that does not look like an option *)
Definition bare (w : string) : Prop := w = "-" \/ ~ exists r, w = "-" ++ r.

(** The option that a name calls: by its full name, or by the beginning of it if that is the
    beginning of one name only *)
Definition calls (t : list opt) (name : string) (o : opt) : Prop :=
  In o t /\
  (opt_long o = name \/
   (forall o', In o' t -> opt_long o' <> name) /\ (exists r, opt_long o = name ++ r) /\ (forall o' r, In o' t -> opt_long o' = name ++ r -> o' = o)).
Definition letter (t : list opt) (c : ascii) (o : opt) : Prop := In o t /\ opt_short o = Some c.
Definition takes (number : string -> option Z) (o : opt) (x : string) (y : value) : Prop :=
  opt_kind o = Text /\ y = VText x \/ opt_kind o = Number /\ exists z, number x = Some z /\ y = VNumber z.

(** Letters of options without values *)
Inductive flags (t : list opt) : string -> list (string * value) -> Prop :=
| flags_nil : flags t "" []
| flags_cons c cs o l : letter t c o -> opt_kind o = Flag -> flags t cs l -> flags t (String c cs) ((dest o, VBool true) :: l).

(** What an item sets *)
Inductive means (number : string -> option Z) (t : list opt) : item -> list (string * value) -> Prop :=
| means_word w : bare w -> means number t (Word w) []
| means_long n o : n <> "" -> free_of "=" n -> calls t n o -> opt_kind o = Flag -> means number t (Long n) [(dest o, VBool true)]
| means_long_is n x o y : free_of "=" n -> calls t n o -> takes number o x y -> means number t (LongIs n x) [(dest o, y)]
| means_long_next n x o y : n <> "" -> free_of "=" n -> calls t n o -> takes number o x y -> means number t (LongNext n x) [(dest o, y)]
| means_short fs l : fs <> "" -> flags t fs l -> means number t (Short fs) l
| means_short_is fs l c x o y : flags t fs l -> letter t c o -> x <> "" -> takes number o x y -> means number t (ShortIs fs c x) (l ++ [(dest o, y)])
| means_short_next fs l c x o y : flags t fs l -> letter t c o -> takes number o x y -> means number t (ShortNext fs c x) (l ++ [(dest o, y)]).

(** Later settings win. *)
Definition set_all (v : settings) (l : list (string * value)) : settings := fold_left (fun v s => <[ fst s := snd s ]> v) l v.

(** The items, and what they set one after another *)
Definition meaning (number : string -> option Z) (t : list opt) (is : list item) (l : list (string * value)) : Prop :=
  exists ls, List.Forall2 (means number t) is ls /\ l = concat ls.
(** After "--" everything is a word. *)
Definition closing (rest tail : list string) : Prop := rest = [] /\ tail = [] \/ rest = "--" :: tail.
Definition says (number : string -> option Z) (t : list opt) (argv : list string) (is : list item) (tail : list string) (l : list (string * value)) : Prop :=
  meaning number t is l /\ exists rest, argv = (concat (map spelled is) ++ rest)%list /\ closing rest tail.

(** A request for the help text or the version *)
Definition asks (t : list opt) (argv : list string) : Prop :=
  exists w rest o, argv = w :: rest /\ shows o = true /\
  ((exists n, n <> "" /\ free_of "=" n /\ w = "--" ++ n /\ calls t n o) \/
   (exists fs c r l, w = "-" ++ fs ++ String c r /\ flags t fs l /\ letter t c o)).

(** A table in which every name has one meaning *)
Definition sound (t : list opt) : Prop :=
  (forall o o', In o t -> In o' t -> opt_long o = opt_long o' -> o = o') /\
  (forall o o' c, In o t -> In o' t -> opt_short o = Some c -> opt_short o' = Some c -> o = o') /\
  (forall o, In o t -> opt_short o <> Some "-"%char) /\
  List.NoDup t.

(** ** What is documented *)
(** README.md 50-75 *)
Definition documented : list (string * string * command) :=
  [("add-repo", "ar", AddRepo); ("build", "bi", Build); ("check", "", Check); ("clean", "", Clean); ("configure-pending", "cp", ConfigurePending);
   ("delete-cache", "dc", DeleteCache); ("emerge", "em", Emerge); ("graph", "", Graph); ("help", "?", Help); ("index", "ix", Index); ("info", "", Info);
   ("install", "it", Install); ("list-available", "la", ListAvailable); ("list-components", "lc", ListComponents); ("list-installed", "li", ListInstalled);
   ("list-pending", "lp", ListPending); ("list-repo", "lr", ListRepo); ("list-sources", "ls", ListSources); ("list-upgrades", "lu", ListUpgrades);
   ("rebuild-db", "rdb", RebuildDb); ("remove", "rm", Remove); ("remove-repo", "rr", RemoveRepo); ("search", "sr", Search); ("search-file", "sf", SearchFile);
   ("update-repo", "ur", UpdateRepo); ("upgrade", "up", Upgrade)].
Definition named (c : string) (k : command) : Prop := exists long short, In (long, short, k) documented /\ (c = long \/ c = short /\ short <> "").
(** README.md 97-117: the options of install; those with a value are marked *)
Definition install_documented : list (string * string * bool) :=
  [("", "version", false); ("h", "help", false); ("B", "ignore-comar", false); ("S", "bypass-safety", false); ("n", "dry-run", false); ("E", "ignore-dependency", false);
   ("", "reinstall", false); ("", "ignore-file-conflicts", false); ("", "ignore-build-no", false); ("D", "destdir", true); ("y", "yes-all", false);
   ("u", "username", true); ("p", "password", true); ("v", "verbose", false); ("d", "debug", false); ("N", "no-color", false); ("L", "bandwidth-limit", true)].

(** README.md 108-117: the general options, which every command has *)
Definition general_documented : list (ascii * string * kind) :=
  [("D"%char, "destdir", Text); ("y"%char, "yes-all", Flag); ("u"%char, "username", Text); ("p"%char, "password", Text); ("v"%char, "verbose", Flag); ("d"%char, "debug", Flag); ("N"%char, "no-color", Flag);
   ("L"%char, "bandwidth-limit", Text); ("h"%char, "help", ShowHelp)].

(** The first word that does not look like an option *)
Definition first_bare (argv : list string) (c : string) : Prop :=
  exists a b, argv = (a ++ c :: b)%list /\ bare c /\ c <> "--" /\ forall x, In x a -> ~ bare x /\ x <> "--".
(** The item hides no bare word. *)
Definition open_ (i : item) : Prop :=
  match i with Word _ => False | LongNext _ x | ShortNext _ _ x => ~ bare x /\ x <> "--" | _ => True end.

(** ** What the operations get *)
(** The line gives the option, at least once. *)
Definition gives (l : list (string * value)) (d : string) : Prop := exists y, In (d, y) l.
(** The operation runs with the options of the line, and no others. *)
Definition given_options (l : list (string * value)) (o : opts) : Prop :=
  (o_ignore_dependency o = true <-> gives l "ignore_dependency") /\
  (o_bypass_safety o = true <-> gives l "bypass_safety") /\
  (o_dry_run o = true <-> gives l "dry_run") /\
  (o_ignore_build o = true <-> gives l "ignore_build_no") /\
  (o_eager o = true <-> gives l "eager") /\
  (o_ignore_file_conflicts o = true <-> gives l "ignore_file_conflicts") /\
  (o_comar o = true <-> ~ gives l "ignore_comar").
(** With --yes-all every question is answered with yes, and otherwise by the user. *)
Definition answers_with (l : list (string * value)) (h h' : host) : Prop :=
  (h_it h' = h_it h /\ h_list h' = h_list h /\ h_sha1 h' = h_sha1 h /\ h_hook h' = h_hook h /\ h_fetch h' = h_fetch h /\ h_open h' = h_open h /\ h_text h' = h_text h) /\
  (gives l "yes_all" -> forall e q, h_answer h' e q = true) /\
  (~ gives l "yes_all" -> h_answer h' = h_answer h).
(** The destination is the last one given, or else the configured one. *)
Definition goes_to (realpath : string -> string) (configured : string) (l : list (string * value)) (d : string) : Prop :=
  (~ gives l "destdir" -> d = configured) /\
  (forall a b x, l = (a ++ ("destdir", VText x) :: b)%list -> ~ gives b "destdir" -> d = if String.eqb x "" then configured else realpath x).
(** The last value given *)
Definition last_text (l : list (string * value)) (d x : string) : Prop := exists a b, l = (a ++ (d, VText x) :: b)%list /\ ~ gives b d.
