(** * Vocabulary for listings *)
From Coq Require Import String Ascii List Sorted.
From stdpp Require Import gmap strings.
From Verif Require Import Model.Py Model.ItemByRepo Model.Package Model.ComponentDB Model.Databases Model.InstallDB Model.System.
Open Scope string_scope.

(** [a] comes before [b] in the order of their bytes, as in a dictionary *)
Inductive goes_before : string -> string -> Prop :=
| gb_end c s : goes_before "" (String c s)
| gb_less c d s t : (nat_of_ascii c < nat_of_ascii d)%nat -> goes_before (String c s) (String d t)
| gb_same c s t : goes_before s t -> goes_before (String c s) (String c t).

(** [ns]: the names meeting [P], each once, in dictionary order *)
Definition roll (P : string -> Prop) (ns : list string) : Prop :=
  StronglySorted goes_before ns /\ forall n, In n ns <-> P n.

(** [out] has one line for each name meeting [P], in dictionary order, and [shows n line] holds of it *)
Definition listing (P : string -> Prop) (shows : string -> string -> Prop) (out : list string) : Prop :=
  exists ns, roll P ns /\ Forall2 shows ns out.
(** the same, with any number of lines for each name *)
Definition listing_blocks (P : string -> Prop) (shows : string -> list string -> Prop) (out : list string) : Prop :=
  exists ns blocks, roll P ns /\ Forall2 shows ns blocks /\ out = concat blocks.

(** A text in the user's language, or else in English, or else in Turkish *)
Definition in_language (lang : string) (t : list (string * string)) (x : string) : Prop :=
  let has l := exists y, In (l, y) t in
  In (lang, x) t \/
  (~ has lang /\ In ("en", x) t) \/
  (~ has lang /\ ~ has "en" /\ In ("tr", x) t) \/
  (~ has lang /\ ~ has "en" /\ ~ has "tr" /\ x = "").

(** [x] with blanks in front, or behind, up to a width *)
Definition blanks (b : string) : Prop := forall c, In c (list_ascii_of_string b) -> c = " "%char.
Definition flush_right (width : nat) (x y : string) : Prop :=
  exists b, blanks b /\ y = b ++ x /\ String.length y = Nat.max width (String.length x).
Definition flush_left (width : nat) (x y : string) : Prop :=
  exists b, blanks b /\ y = x ++ b /\ String.length y = Nat.max width (String.length x).

Definition installed (s : sys) (n : string) : Prop := is_installed (y_inst s) n = true.
(** repository [repo] has a package [n], described by [p] *)
Definition carries (s : sys) (repo n : string) (p : package) : Prop := get_package (y_db s) n (RName repo) = Ok p.
(** the first repository, in priority order, that has a package [n] is [repo] *)
Definition first_with (s : sys) (n repo : string) : Prop :=
  exists before after p, order_of (y_db s) = (before ++ repo :: after)%list /\ carries s repo n p /\
    forall r q, In r before -> ~ carries s r n q.

(** what the line of a listed package may look like: plain, or between the codes for green and for the default colour *)
Definition coloured (no_color : bool) (n x : string) : Prop :=
  if no_color then x = n else x = String "027" ("[32m" ++ n ++ String "027" "[0m").

Section shown.
  Context (lang : string) (full : package -> string) (info_text : iinfo -> string) (time : string -> string)
    (about_source source_text : spec -> string) (about_component component_text : component -> string).

  (** list-installed, a package to a line: its name, up to fifteen places, and its summary *)
  Definition short_line s (n line : string) : Prop :=
    exists p w t, get_package (y_db s) n RInst = Ok p /\ flush_right 15 n w /\ in_language lang (p_summary p) t /\ line = (w ++ " - " ++ t)%string.

  (** list-installed --install-info: name, state, version, release, build, distribution and date, in columns *)
  Definition table_line s (n line : string) : Prop :=
    exists p i w st v r b d t, get_package (y_db s) n RInst = Ok p /\ get_info (y_inst s) n = Ok i /\ flush_left 15 n w /\
      flush_right 2 (match i_state i with StI => "i" | StIP => "ip" | StR => "r" end) st /\ i_state i <> StR /\
      flush_right 10 (p_version p) v /\ flush_right 6 (p_release p) r /\
      flush_right 6 (match p_build p with Some z => str_of_Z z | None => "None" end) b /\
      flush_right 8 (p_distribution p) d /\ flush_right 12 (time n) t /\
      line = (w ++ "  |" ++ st ++ "|" ++ v ++ "|" ++ r ++ "|" ++ b ++ "|" ++ d ++ "|" ++ t)%string.

  (** list-installed --long: the description of the package and that of its installation *)
  Definition full_lines s (n : string) (b : list string) : Prop :=
    exists p i, get_package (y_db s) n RInst = Ok p /\ get_info (y_inst s) n = Ok i /\ b = [full p; info_text i].

  (** list-available: what is shown of a package comes from the first repository that has one of that name; installed
    packages are coloured, or left out; only the descriptions (--long) take no notice of what is installed *)
  Definition available_lines s (long uninstalled no_color : bool) (n : string) (b : list string) : Prop :=
    exists first p, first_with s n first /\ carries s first n p /\
      if long then b = [full p]
      else (installed s n /\ uninstalled = true /\ b = []) \/
           exists x w t, (installed s n /\ uninstalled = false /\ coloured no_color n x \/ ~ installed s n /\ x = n) /\
             blanks w /\ (String.length n + String.length w)%nat = Nat.max 15 (String.length n) /\
             in_language lang (p_summary p) t /\ b = [(x ++ w ++ " - " ++ t ++ " ")%string].

  (** the line that explains the colour *)
  Definition key_line (no_color uninstalled : bool) (head : list string) : Prop :=
    if (no_color || uninstalled)%bool then head = [] else exists x, coloured false "Installed packages are shown in this color" x /\ head = [x].

  (** list-components *)
  Definition component_line s (long : bool) (n line : string) : Prop :=
    exists c, get_component (order_of (y_db s)) (db_comp (y_db s)) n RRepos = Ok c /\ line = if long then component_text c else (n ++ " - " ++ about_component c ++ " ")%string.

  (** list-sources *)
  Definition source_lines s (long : bool) (n : string) (b : list string) : Prop :=
    exists sp repo, get_item_repo (order_of (y_db s)) (db_src (y_db s)) n RRepos = Ok (sp, RName repo) /\
      b = if long then [("[Repository: " ++ repo ++ "]")%string; source_text sp] else [(n ++ " - " ++ about_source sp)%string].

  (** some repository has a component [n] *)
  Definition a_component s (n : string) : Prop := exists repo c, get_component (order_of (y_db s)) (db_comp (y_db s)) n (RName repo) = Ok c.

  (** the name of a package file *)
  Definition package_file (n : string) : Prop := exists x, n = (x ++ ".pisi")%string.

  (** info: the description, or on one line the name and the summary *)
  Definition short_text (short : bool) (p : package) (ls : list string) : Prop :=
    if short then exists w t, flush_right 15 (p_name p) w /\ in_language lang (p_summary p) t /\ ls = [(w ++ " - " ++ t)%string] else ls = [full p; ""].
End shown.
