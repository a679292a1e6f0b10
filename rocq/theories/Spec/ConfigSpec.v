(** * What a configuration file says *)
From Coq Require Import String Ascii ZArith List Bool.
From Verif Require Import Model.Py Model.Search Model.Config Spec.PathSpec.
Import ListNotations.
Open Scope string_scope.

(** The lines of a configuration file *)
Inductive item : Type := Skip | Section_ (name : string) | Assign (key value : string).
Definition spaces (s : string) : Prop := forall c, In c (list_ascii_of_string s) -> is_space c = true.
(** No white space at either end *)
Definition tight (s : string) : Prop :=
  (forall c r, s = String c r -> is_space c = false) /\ (forall r c, s = r ++ String c "" -> is_space c = false).
(** [rem], or [rem] and white space *)
Definition remark (s : string) : Prop := exists r, py_lower s = "rem" ++ r /\ forall c r', r = String c r' -> is_space c = true.
Definition good_key (k : string) : Prop :=
  k <> "" /\ tight k /\ free_of ":" k /\ free_of "=" k /\ ~ remark k /\
  forall c r, k = String c r -> ~ In c ["#"; ";"; "["]%char.
(** The first semicolon, if there is one, is not after white space *)
Definition good_value (v : string) : Prop :=
  tight v /\ (forall a b, v = a ++ ";" ++ b -> free_of ";" a -> exists r c, a = r ++ String c "" /\ is_space c = false) /\ v <> """""".
Inductive reads_as : string -> item -> Prop :=
| reads_blank s : spaces s -> reads_as s Skip
| reads_comment c r : c = "#"%char \/ c = ";"%char -> reads_as (String c r) Skip
| reads_header name rest : name <> "" -> free_of "]" name -> reads_as ("[" ++ name ++ "]" ++ rest) (Section_ name)
| reads_entry key b sign a value e : good_key key -> spaces b -> sign = ":"%char \/ sign = "="%char -> spaces a -> good_value value -> spaces e ->
    reads_as (key ++ b ++ String sign (a ++ value ++ e)) (Assign key value)
| reads_entry_comment key b sign a value e rest : good_key key -> spaces b -> sign = ":"%char \/ sign = "="%char -> spaces a ->
    good_value value -> free_of ";" value -> value <> "" -> spaces e -> e <> "" ->
    reads_as (key ++ b ++ String sign (a ++ value ++ e ++ ";" ++ rest)) (Assign key value).

(** The last header before is that of the section *)
Definition under (before : list item) (sect : string) : Prop :=
  exists a b, before = (a ++ Section_ sect :: b)%list /\ forall s, ~ In (Section_ s) b.
(** The last value a section gives for a key; capitals do not matter in the file's keys *)
Definition final (items : list item) (sect key value : string) : Prop :=
  exists before k after, items = (before ++ Assign k value :: after)%list /\ py_lower k = key /\ under before sect /\
    forall before' k' value' after', items = (before' ++ Assign k' value' :: after')%list -> py_lower k' = key -> under before' sect ->
      (length before' <= length before)%nat.
(** What is given in the section, or else in [DEFAULT] *)
Definition given (items : list item) (sect key value : string) : Prop :=
  In (Section_ sect) items /\
  (final items sect key value \/ ((forall v, ~ final items sect key v) /\ final items "DEFAULT" key value)).
(** Every value is in some section *)
Definition headed (items : list item) : Prop :=
  forall before k v after, items = (before ++ Assign k v :: after)%list -> exists s, In (Section_ s) before.

(** "True" and "False" are truth values, all else is text *)
Inductive stands_for : string -> cvalue -> Prop :=
| stands_true : stands_for "True" (CBool true)
| stands_false : stands_for "False" (CBool false)
| stands_text s : s <> "True" -> s <> "False" -> stands_for s (CStr s).
(** Without the file *)
Definition standard : list (string * string * cvalue) :=
  [("general", "destinationdirectory", CStr "/"); ("general", "autoclean", CBool false); ("general", "xdelta", CBool false);
   ("general", "bandwidth_limit", CInt 0); ("general", "distribution", CStr "Pardus"); ("general", "distribution_release", CStr "1.1");
   ("build", "host", CStr ""); ("build", "jobs", CStr "-j1"); ("build", "cflags", CStr "-O2 -pipe -fomit-frame-pointer");
   ("build", "cxxflags", CStr "-O2 -pipe -fomit-frame-pointer"); ("build", "ldflags", CStr ""); ("build", "buildno", CBool false); ("build", "generatedebug", CStr "");
   ("build", "buildhelper", CNone); ("build", "compressionlevel", CInt 7);
   ("directories", "lib_dir", CStr "/var/lib/pisi"); ("directories", "db_dir", CStr "/var/db/pisi");
   ("directories", "archives_dir", CStr "/var/cache/pisi/archives"); ("directories", "packages_dir", CStr "/var/cache/pisi/packages");
   ("directories", "index_dir", CStr "/var/lib/pisi/index"); ("directories", "tmp_dir", CStr "/var/tmp/pisi");
   ("directories", "icon_theme_dir", CStr "/usr/share/icons/Tulliana-1.0"); ("directories", "kde_dir", CStr "/usr/kde/3.5");
   ("directories", "qt_dir", CStr "/usr/qt/3")].
