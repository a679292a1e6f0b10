(** * The command line: cli/command.py, cli/pisicli.py, cli/commands.py and the option tables of
      the commands in cli/

    [parse] is OptionParser.parse_args of Python 2.7's optparse, as far as these tables use it. *)
From Coq Require Import String Ascii ZArith List Bool.
From stdpp Require Import gmap strings.
From Verif Require Import Model.Py Model.Package Model.ItemByRepo Model.ComponentDB Model.Databases Model.InstallDB Model.System Model.Plan Model.Ops Model.Security.
Import ListNotations.
Open Scope string_scope.

(** ** Option tables *)
Inductive kind := Flag | Text | Number | ShowHelp | ShowVersion.    (* store_true; store; store of type int; help; version *)
Inductive value := VNone | VBool (b : bool) | VText (s : string) | VNumber (z : Z).
Record opt := mkOpt {
  opt_short : option ascii;   (* -c *)
  opt_long : string;          (* --long *)
  opt_kind : kind;
  opt_default : value
}.
(** optparse.Option._set_attrs: the attribute is the long name with _ for - *)
Fixpoint underscored (s : string) : string :=
  match s with EmptyString => EmptyString | String c s => String (if Ascii.eqb c "-" then "_" else c)%char (underscored s) end.
Definition dest (o : opt) : string := underscored (opt_long o).
Definition settings := gmap string value.
Definition shows (o : opt) : bool := match opt_kind o with ShowHelp | ShowVersion => true | _ => false end.
Definition defaults (t : list opt) : settings := list_to_map (map (fun o => (dest o, opt_default o)) (filter (fun o => shows o = false) t)).

(** OptionContainer._check_conflict and add_option: the two exceptions are told apart from pisi's;
    OptionConflictError is [EValue] here. *)
Definition same_short (a b : option ascii) : bool := match a, b with Some x, Some y => Ascii.eqb x y | _, _ => false end.
Definition conflicts (t : list opt) (o : opt) : bool :=
  existsb (fun o' => same_short (opt_short o') (opt_short o) || String.eqb (opt_long o') (opt_long o)) t.
Definition add_option (t : list opt) (o : opt) : res (list opt) := if conflicts t o then Err EValue else Ok (t ++ [o])%list.
Definition add_options (l : list opt) (t : list opt) : res (list opt) := foldM add_option l t.
Definition remove_option (long : string) (t : list opt) : list opt := List.filter (fun o => negb (String.eqb (opt_long o) long)) t.

(** The usual ways to declare one *)
Definition flag (c : ascii) (n : string) : opt := mkOpt (Some c) n Flag (VBool false).
Definition long_flag (n : string) : opt := mkOpt None n Flag (VBool false).
Definition text (c : ascii) (n : string) : opt := mkOpt (Some c) n Text VNone.

(** command.py 78-95 *)
Definition commonopts : list opt :=
  [text "D" "destdir"; flag "y" "yes-all"; text "u" "username"; text "p" "password"; flag "v" "verbose"; flag "d" "debug"; flag "N" "no-color";
   mkOpt (Some "L"%char) "bandwidth-limit" Text (VNumber 0)].
(** command.py 208-224 *)
Definition buildno_opts : opt := long_flag "ignore-build-no".
Definition abandoned_files_opt : opt := long_flag "show-abandoned-files".
Definition ignoredep_opt : opt := flag "E" "ignore-dependency".

(** ** Commands *)
Inductive command :=
| AddRepo | Build | Check | Clean | ConfigurePending | DeleteCache | Emerge | Graph | Help | Index | Info | Install
| ListAvailable | ListComponents | ListInstalled | ListPending | ListRepo | ListSources | ListUpgrades
| RebuildDb | Remove | RemoveRepo | Search | SearchFile | UpdateRepo | Upgrade.

(** The class attribute [name] of each, in the order in which commands.py imports them; command.py
    171-188 registers them *)
Definition registered : list (command * (string * string)) :=
  [(Build, ("build", "bi")); (Check, ("check", "")); (Clean, ("clean", "")); (ConfigurePending, ("configure-pending", "cp")); (DeleteCache, ("delete-cache", "dc"));
   (Emerge, ("emerge", "em")); (Graph, ("graph", "")); (Help, ("help", "?")); (Index, ("index", "ix")); (Info, ("info", "")); (Install, ("install", "it"));
   (ListInstalled, ("list-installed", "li")); (ListAvailable, ("list-available", "la")); (ListComponents, ("list-components", "lc")); (ListSources, ("list-sources", "ls"));
   (ListUpgrades, ("list-upgrades", "lu")); (ListPending, ("list-pending", "lp")); (RebuildDb, ("rebuild-db", "rdb")); (Remove, ("remove", "rm"));
   (AddRepo, ("add-repo", "ar")); (RemoveRepo, ("remove-repo", "rr")); (UpdateRepo, ("update-repo", "ur")); (ListRepo, ("list-repo", "lr"));
   (Search, ("search", "sr")); (SearchFile, ("search-file", "sf")); (Upgrade, ("upgrade", "up"))].
(** command.py 53-62 and 176-188: the dictionary of names; an empty short name is not entered *)
Definition get_command (name : string) : option command :=
  match find (fun e => String.eqb (fst (snd e)) name || negb (String.eqb (snd (snd e)) "") && String.eqb (snd (snd e)) name) registered with
  | Some e => Some (fst e)
  | None => None
  end.

(** packageop.py 32-40 *)
Definition packageop_opts : list opt := [flag "B" "ignore-comar"; flag "S" "bypass-safety"; flag "n" "dry-run"; ignoredep_opt].
(** info.py 42-53 *)
Definition info_opts : list opt := [flag "f" "files"; flag "F" "files-path"; flag "s" "short"; long_flag "xml"].
(** build.py 53-78 *)
Definition build_opts : list opt :=
  [buildno_opts; abandoned_files_opt; ignoredep_opt; text "O" "output-dir"; text "U" "until"; flag "A" "ignore-action-errors"; flag "S" "bypass-safety";
   long_flag "ignore-file-conflicts"; flag "B" "ignore-comar"; long_flag "create-static"; long_flag "no-install"; mkOpt (Some "F"%char) "package-format" Text (VText "1.1")].
(** The method [options] of each command, starting from what the parser has already.
    listcmd.py 222: buildno_opts is not imported there.  search.py 42-48: --short is removed again. *)
Definition options (k : command) (t : list opt) : res (list opt) :=
  match k with
  | AddRepo => add_options [mkOpt None "at" Number VNone] t                                            (* repo.py 45-48 *)
  | Build | Emerge => add_options build_opts t                                                          (* emerge.py 45-46 *)
  | Graph => add_options [text "r" "repository"; flag "i" "installed"; long_flag "ignore-installed"; mkOpt (Some "o"%char) "output" Text (VText "pgraph.dot")] t   (* graph.py 43-56 *)
  | Index => add_options [flag "a" "absolute-uris"; mkOpt (Some "o"%char) "output" Text (VText "pisi-index.xml"); flag "S" "skip-sources"; flag "G" "skip-signing"; flag "R" "non-recursive"] t   (* index.py 46-61 *)
  | Info => add_options info_opts t
  | Install => add_options (packageop_opts ++ [long_flag "reinstall"; long_flag "ignore-file-conflicts"; buildno_opts]) t    (* install.py 45-52 *)
  | Remove | ConfigurePending => add_options packageop_opts t
  | Upgrade => add_options (packageop_opts ++ [buildno_opts; long_flag "security"; flag "r" "bypass-update-repo"; long_flag "ignore-file-conflicts"; flag "e" "eager"]) t   (* upgrade.py 54-65 *)
  | ListAvailable => add_options [flag "l" "long"; flag "U" "uninstalled"] t                            (* listcmd.py 84-88 *)
  | ListInstalled => add_options [flag "l" "long"; flag "i" "install-info"] t                           (* listcmd.py 41-45 *)
  | ListComponents | ListSources => add_options [flag "l" "long"] t                                     (* listcmd.py 143-145, 180-182 *)
  | ListUpgrades => t <- add_options [flag "l" "long"; flag "i" "install-info"] t ;; Err EName          (* listcmd.py 217-222 *)
  | RebuildDb => add_options [flag "f" "files"] t                                                       (* rebuilddb.py 44-46 *)
  | Search => t <- add_options (info_opts ++ [text "l" "language"]) t ;; add_options [flag "L" "long"] (remove_option "short" t)
  | SearchFile => add_options [flag "l" "long"; flag "f" "fuzzy"] t                                     (* search.py 93-97 *)
  | UpdateRepo => add_options [flag "f" "force"] t                                                      (* repo.py 111-114 *)
  | Check | Clean | DeleteCache | Help | ListPending | ListRepo | RemoveRepo => Ok t
  end.
(** command.py 66-73: OptionParser has --version and -h, --help already *)
Definition standard : list opt := [mkOpt None "version" ShowVersion VNone; mkOpt (Some "h"%char) "help" ShowHelp VNone].
Definition make_parser (k : command) : res (list opt) := t <- options k standard ;; add_options commonopts t.

(** ** optparse *)
Section parse.
  Variable number : string -> option Z.   (* optparse's int: decimal, 0x, 0b or octal *)

  Definition takes_value (o : opt) : bool := match opt_kind o with Text | Number => true | _ => false end.
  (** Option.convert_value and take_action; None: the value is bad *)
  Definition convert (o : opt) (x : string) : option value :=
    match opt_kind o with
    | Text => Some (VText x)
    | Number => match number x with Some z => Some (VNumber z) | None => None end
    | _ => None
    end.
  (** _match_abbrev: the name itself, or the only one that starts so *)
  Definition match_long (t : list opt) (s : string) : option opt :=
    match find (fun o => String.eqb (opt_long o) s) t with
    | Some o => Some o
    | None => match List.filter (fun o => py_startswith (opt_long o) s) t with [o] => Some o | _ => None end
    end.
  Definition match_short (t : list opt) (c : ascii) : option opt := find (fun o => same_short (opt_short o) (Some c)) t.

  (** What becomes of a command line: a complaint (exit 2), a text shown (exit 0), or values and words *)
  Inductive outcome := Bad | Shown | Parsed (v : settings) (words : list string).
  (** "name=value" *)
  Fixpoint cut (s : string) : string * option string :=
    match s with
    | EmptyString => (EmptyString, None)
    | String c s => if Ascii.eqb c "=" then (EmptyString, Some s) else let r := cut s in (String c (fst r), snd r)
    end.
  (** _process_short_opts: the letters of one word; a value is the rest of the word or else the
      next word *)
  Inductive letters := LBad | LShown | LDone (v : settings) | LWants (o : opt) (v : settings).
  Fixpoint short_opts (t : list opt) (cs : string) (v : settings) : letters :=
    match cs with
    | EmptyString => LDone v
    | String c cs =>
        match match_short t c with
        | None => LBad
        | Some o =>
            if takes_value o then
              match cs with
              | EmptyString => LWants o v
              | _ => match convert o cs with Some x => LDone (<[ dest o := x ]> v) | None => LBad end
              end
            else if shows o then LShown
            else short_opts t cs (<[ dest o := VBool true ]> v)
        end
    end.
  (** _process_args, _process_long_opt *)
  Fixpoint parse (t : list opt) (args : list string) (v : settings) (words : list string) : outcome :=
    match args with
    | [] => Parsed v words
    | a :: rest =>
        if String.eqb a "--" then Parsed v (words ++ rest)
        else if py_startswith a "--" then
          let n := cut (py_drop 2 a) in
          match match_long t (fst n) with
          | None => Bad
          | Some o =>
              if takes_value o then
                match snd n, rest with
                | Some x, _ => match convert o x with Some y => parse t rest (<[ dest o := y ]> v) words | None => Bad end
                | None, x :: rest => match convert o x with Some y => parse t rest (<[ dest o := y ]> v) words | None => Bad end
                | None, [] => Bad
                end
              else match snd n with
                   | Some _ => Bad
                   | None => if shows o then Shown else parse t rest (<[ dest o := VBool true ]> v) words
                   end
          end
        else if py_startswith a "-" && negb (String.eqb a "-") then
          match short_opts t (py_drop 1 a) v with
          | LBad => Bad
          | LShown => Shown
          | LDone v => parse t rest v words
          | LWants o v =>
              match rest with
              | x :: rest => match convert o x with Some y => parse t rest (<[ dest o := y ]> v) words | None => Bad end
              | [] => Bad
              end
          end
        else parse t rest v (words ++ [a])
    end.

  (** ** pisicli.py *)
  (** 49-79, PreParser: options and words, up to "--" *)
  Fixpoint pre_words (args : list string) : list string :=
    match args with
    | [] => []
    | a :: rest => if String.eqb a "--" then []
                   else if py_startswith a "-" && negb (String.eqb a "-") then pre_words rest
                   else a :: pre_words rest
    end.
  Fixpoint pre_opts (args : list string) : list string :=
    match args with
    | [] => []
    | a :: rest => if String.eqb a "--" then []
                   else if py_startswith a "--" then py_drop 2 a :: pre_opts rest
                   else if py_startswith a "-" && negb (String.eqb a "-") then py_drop 1 a :: pre_opts rest
                   else pre_opts rest
    end.
  (** What starting pisi comes to: an exit with a text, an exception, or a command to run *)
  Inductive started := Exits (code : nat) | Fails (e : exn) | Runs (k : command) (v : settings) (args : list string).
  (** 84-108, and command.py 66-76: the first word is taken away *)
  Definition start (args : list string) : started :=
    match pre_words args with
    | [] => if existsb (String.eqb "version") (pre_opts args) then Exits 0
            else if existsb (String.eqb "help") (pre_opts args) || existsb (String.eqb "h") (pre_opts args) then Exits 1
            else Fails EError
    | c :: _ =>
        match get_command c with
        | None => Fails EError
        | Some k =>
            match make_parser k with
            | Err e => Fails e
            | Ok t => match parse t args (defaults t) [] with
                      | Bad => Exits 2
                      | Shown => Exits 0
                      | Parsed v words => Runs k v (tl words)
                      end
            end
        end
    end.
End parse.

(** ** What the commands do with them *)
(** config.py 68-72, context.py 28-29, as a condition *)
Definition on (v : settings) (name : string) : bool :=
  match v !! name with
  | Some (VBool b) => b
  | Some (VText s) => negb (String.eqb s "")
  | Some (VNumber z) => negb (Z.eqb z 0)
  | Some VNone | None => false
  end.
(** command.py 117-138; [typed]: what getpass returns *)
Definition authinfo (typed : string) (v : settings) : option (string * string) :=
  match v !! "username" with
  | Some (VText u) => if String.eqb u "" then None
                      else Some (u, match v !! "password" with Some (VText p) => if String.eqb p "" then typed else p | _ => typed end)
  | _ => None
  end.
(** The options as the operations see them; [comar]: whether the command uses COMAR (packageop.py
    30, emerge.py 41); api.py 81 *)
Definition opts_of (v : settings) (comar : bool) (destdir : string) : opts :=
  mkOpts (on v "ignore_dependency") (on v "bypass_safety") (on v "dry_run") (on v "ignore_build_no") (on v "eager") (on v "ignore_file_conflicts")
         (comar && negb (on v "ignore_comar")) destdir.
(** command.py 108-115 and config.py 50-57; [realpath] is that of os.path *)
Definition destination (realpath : string -> string) (configured : string) (v : settings) : string :=
  match v !! "destdir" with Some (VText d) => if String.eqb d "" then configured else realpath d | _ => configured end.
(** cli/__init__.py 112-125: with --yes-all nobody is asked *)
Definition answering (v : settings) (h : host) : host :=
  mkHost (h_it h) (h_list h) (fun l q => if on v "yes_all" then true else h_answer h l q) (h_sha1 h) (h_hook h) (h_fetch h) (h_open h) (h_text h).

Section run.
  Variable h : host.
  Variable realpath : string -> string.
  Variable configured : string.                  (* the configured destination directory *)
  Variable update_repo : string -> M unit.       (* op/repo.py: update_repo, see Model/Index.v *)
  Variable repos : sys -> list string.           (* ctx.repodb.list() *)
  Variable history : package -> list update.     (* the histories in the index, see Model/Security.v *)

  Definition os_ (v : settings) : opts := opts_of v true (destination realpath configured v).
  (** install.py 54-62 *)
  Definition run_install (v : settings) (args : list string) : M unit :=
    match args with [] => ret tt | _ => install (answering v h) (os_ v) args (on v "reinstall") end.
  (** remove.py 44-51 *)
  Definition run_remove (v : settings) (args : list string) : M unit :=
    match args with [] => ret tt | _ => bindM (remove (answering v h) (os_ v) args false) (fun _ => ret tt) end.
  (** upgrade.py 67-85 *)
  Definition run_upgrade (v : settings) (args : list string) : M unit :=
    bindM (if on v "bypass_update_repo" then ret tt
           else bindM (look (fun s => Ok (repos s))) (fun l => eachM update_repo l)) (fun _ =>
    bindM (look (fun s => Ok (match args with [] => list_installed (y_inst s) | _ => args end))) (fun l =>
    bindM (if on v "security" then upgrade_security (answering v h) (os_ v) history l else upgrade_pkg_names (answering v h) (os_ v) l) (fun _ => ret tt))).
  (** configurepending.py 41-45 *)
  Definition run_configure (v : settings) : M unit := configure_pending (answering v h) (os_ v).

  (** pisi-cli 75-85 for these commands; other commands are [other] *)
  Variable other : command -> settings -> list string -> M unit.
  Variable number : string -> option Z.
  Definition pisi (argv : list string) : M unit :=
    match start number argv with
    | Exits _ => ret tt
    | Fails e => throw e
    | Runs Install v args => run_install v args
    | Runs Remove v args => run_remove v args
    | Runs Upgrade v args => run_upgrade v args
    | Runs ConfigurePending v _ => run_configure v
    | Runs k v args => other k v args
    end.
End run.
