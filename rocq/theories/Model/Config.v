(** * The configuration file: pisi/configfile.py, pisi/config.py, and those who ask for settings

    Includes the part of Python 2.7's ConfigParser that pisi uses (ConfigParser.read, items).
    Simplified: substitution of %(name)s in values is left out (values with "%(" are kept as they
    are), and so are attributes every class has (__doc__, __module__). *)
From Coq Require Import String Ascii ZArith List Bool.
From stdpp Require Import gmap strings.
From Verif Require Import Model.Py Model.Path Model.Search.
Import ListNotations.
Open Scope string_scope.

(** ** ConfigParser.py, RawConfigParser._read *)
Fixpoint until (stop : ascii -> bool) (s : string) : string :=
  match s with
  | EmptyString => ""
  | String c s => if stop c then "" else String c (until stop s)
  end.
(** [line.split(None, 1)[0]] of a line that is not blank *)
Definition first_word (line : string) : string := until is_space (py_lstrip whitespace_chars line).
Definition head_is (p : ascii -> bool) (s : string) : bool := match s with String c _ => p c | EmptyString => false end.
Definition ignored_line (line : string) : bool :=
  String.eqb (py_strip line) "" || head_is (fun c => Ascii.eqb c "#" || Ascii.eqb c ";") line ||
  (String.eqb (py_lower (first_word line)) "rem" && head_is (fun c => Ascii.eqb c "r" || Ascii.eqb c "R") line).
(** SECTCRE: an opening bracket, characters other than the closing one, the closing one, anything *)
Definition is_close (c : ascii) : bool := Ascii.eqb c "]".
Definition header_of (line : string) : option string :=
  match line with
  | String c rest =>
      if Ascii.eqb c "[" then
        let name := until is_close rest in
        if String.eqb name "" || String.eqb name rest then None else Some name
      else None
  | EmptyString => None
  end.
(** OPTCRE: up to the first colon or equals sign the name, after it and any white space the value;
    the name begins with neither of them nor white space.  Then the treatment of both. *)
Definition is_sign (c : ascii) : bool := Ascii.eqb c ":" || Ascii.eqb c "=".
Definition is_semicolon (c : ascii) : bool := Ascii.eqb c ";".
Definition last_is (p : ascii -> bool) (s : string) : bool := head_is p (str_rev s).
Definition cut_comment (optval : string) : string :=
  let before := until is_semicolon optval in
  if String.eqb before optval then optval                              (* no semicolon *)
  else if String.eqb before "" then if last_is is_space optval then "" else optval     (* optval[-1] *)
  else if last_is is_space before then before else optval.
Definition option_of (line : string) : option (string * string) :=
  if head_is (fun c => is_sign c || is_space c) line then None
  else let name := until is_sign line in
       if String.eqb name "" || String.eqb name line then None
       else let optval := py_strip (cut_comment (py_lstrip whitespace_chars (py_drop (S (String.length name)) line))) in
            Some (py_lower (py_rstrip whitespace_chars name), if String.eqb optval """""" then "" else optval).

Record parser : Type := mkParser {
  p_sections : gmap string (gmap string string);
  p_defaults : gmap string string;
  p_cur : option string;          (* cursect, by its name *)
  p_opt : option string;          (* optname *)
  p_bad : bool                    (* e is not None *)
}.
Definition DEFAULT : string := "DEFAULT".
Definition assign_option (p : parser) (sect name value : string) (bad : bool) : parser :=
  if String.eqb sect DEFAULT
  then mkParser (p_sections p) (<[ name := value ]> (p_defaults p)) (Some sect) (Some name) bad
  else mkParser (<[ sect := <[ name := value ]> (default ∅ (p_sections p !! sect)) ]> (p_sections p)) (p_defaults p) (Some sect) (Some name) bad.
Definition current_value (p : parser) (sect name : string) : string :=
  default "" ((if String.eqb sect DEFAULT then p_defaults p else default ∅ (p_sections p !! sect)) !! name).
Definition read_line (p : parser) (line : string) : res parser :=
  if ignored_line line then Ok p
  else
    match head_is is_space line, p_cur p, p_opt p with
    | true, Some sect, Some name => Ok (assign_option p sect name (current_value p sect name ++ String newline "" ++ py_strip line) (p_bad p))
    | _, _, _ =>
        match header_of line with
        | Some sect =>
            Ok (mkParser (if String.eqb sect DEFAULT then p_sections p
                          else match p_sections p !! sect with Some _ => p_sections p | None => <[ sect := ∅ ]> (p_sections p) end)
                         (p_defaults p) (Some sect) None (p_bad p))
        | None =>
            match p_cur p with
            | None => Err EError                                        (* MissingSectionHeaderError *)
            | Some sect =>
                match option_of line with
                | Some (name, value) => Ok (assign_option p sect name value (p_bad p))
                | None => Ok (mkParser (p_sections p) (p_defaults p) (Some sect) (p_opt p) true)
                end
            end
        end
    end.
(** A file that does not exist reads as no lines (ConfigParser.read) *)
Definition read_lines (lines : list string) : res parser :=
  p <- foldM read_line lines (mkParser ∅ ∅ None None false) ;;
  if p_bad p then Err EError else Ok p.                                 (* ParsingError *)
(** RawConfigParser.items, and configfile.py 147-163: no such section, no items *)
Definition items_of (p : parser) (sect : string) : gmap string string :=
  match p_sections p !! sect with
  | None => ∅
  | Some d => delete "__name__" (d ∪ p_defaults p)
  end.

(** ** configfile.py 62-137 *)
Inductive cvalue : Type := CStr (s : string) | CBool (b : bool) | CInt (z : Z) | CNone.
(** [os.getenv(name) or None] *)
Definition environment (env : string -> option string) (name : string) : cvalue :=
  match env name with Some s => if String.eqb s "" then CNone else CStr s | None => CNone end.
(** configfile.py 62-96 *)
Definition defaults_of (env : string -> option string) (sect : string) : list (string * cvalue) :=
  if String.eqb sect "general" then
    [("destinationdirectory", CStr "/"); ("autoclean", CBool false); ("xdelta", CBool false); ("bandwidth_limit", CInt 0);
     ("distribution", CStr "Pardus"); ("distribution_release", CStr "1.1");
     ("http_proxy", environment env "HTTP_PROXY"); ("https_proxy", environment env "HTTPS_PROXY"); ("ftp_proxy", environment env "FTP_PROXY")]
  else if String.eqb sect "build" then
    [("host", CStr ""); ("jobs", CStr "-j1"); ("generateDebug", CBool false); ("cflags", CStr "-O2 -pipe -fomit-frame-pointer");
     ("cxxflags", CStr "-O2 -pipe -fomit-frame-pointer"); ("ldflags", CStr ""); ("buildno", CBool false); ("buildhelper", CNone); ("compressionlevel", CInt 7)]
  else
    [("lib_dir", CStr "/var/lib/pisi"); ("db_dir", CStr "/var/db/pisi"); ("archives_dir", CStr "/var/cache/pisi/archives");
     ("packages_dir", CStr "/var/cache/pisi/packages"); ("index_dir", CStr "/var/lib/pisi/index"); ("tmp_dir", CStr "/var/tmp/pisi");
     ("icon_theme_dir", CStr "/usr/share/icons/Tulliana-1.0"); ("kde_dir", CStr "/usr/kde/3.5"); ("qt_dir", CStr "/usr/qt/3")].
Fixpoint attribute (name : string) (l : list (string * cvalue)) : option cvalue :=
  match l with
  | [] => None
  | (k, v) :: l => if String.eqb k name then Some v else attribute name l
  end.
(** configfile.py 116-137: [ConfigurationSection.__getattr__] *)
Definition setting (env : string -> option string) (p : parser) (sect attr : string) : cvalue :=
  match items_of p sect !! attr with
  | Some v => if String.eqb v "True" then CBool true else if String.eqb v "False" then CBool false else CStr v
  | None => match attribute attr (defaults_of env sect) with Some v => v | None => CStr "" end
  end.

(** ** Those who ask *)
Definition truth (v : cvalue) : bool :=
  match v with CStr s => negb (String.eqb s "") | CBool b => b | CInt z => negb (Z.eqb z 0) | CNone => false end.
(** op/build.py 854: [autoclean is True] *)
Definition autoclean (v : cvalue) : bool := match v with CBool true => true | _ => false end.
(** op/build.py 85 and 738, util/fs.py 327 and 334: generatedebug; op/build.py 768: buildno;
    data/package.py 52 and 71: xdelta *)
Definition switched_on (v : cvalue) : bool := truth v.
(** archive.py 154-157; [%d] takes no strings *)
Definition lzma_command (level : cvalue) : res string :=
  if truth level then
    match level with
    | CInt z => Ok ("lzma -z -" ++ str_of_Z z)
    | CBool _ => Ok "lzma -z -1"
    | _ => Err EType
    end
  else Ok "lzma -z".
(** fetcher.py 288-294.  The option is a string, or 0 if it is not given (cli/command.py 96) *)
Definition bandwidth_limit (opt : cvalue) (conf : cvalue) : res Z :=
  let limit := if truth opt then opt else conf in
  if truth limit && negb (match limit with CStr s => String.eqb s "0" | _ => false end) then
    match limit with
    | CStr s => z <- py_int s ;; Ok (1024 * z)%Z
    | CInt z => Ok (1024 * z)%Z
    | CBool b => Ok (if b then 1024 else 0)%Z
    | CNone => Err EType
    end
  else Ok 0%Z.
(** config.py 50-57; [cwd] is os.getcwd() *)
Definition dest_dir (cwd : string) (opt : option string) (conf : cvalue) : cvalue :=
  match opt with
  | Some d => if String.eqb d "" then conf
              else if py_startswith (py_strip d) "/" then CStr d else CStr (join_path cwd [d])
  | None => conf
  end.
(** config.py 82-100, without making the directory *)
Definition sub_dir (dest : string) (conf : cvalue) : res string :=
  match conf with CStr d => Ok (join_path dest [d]) | _ => Err EAttribute end.
