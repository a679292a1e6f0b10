(** * search-file: pisi/cli/search.py 76-135, over the files database *)
From Coq Require Import String Ascii ZArith List Bool.
From stdpp Require Import gmap strings.
From Verif Require Import Model.Py Model.Path Model.Index Model.InstallDB Model.Fs.
Open Scope string_scope.

(** ** fnmatch.fnmatch, brackets and all *)
Inductive piece := PChar (c : ascii) | POne | PMany | PSet (stuff : string).
(** fnmatch.translate: [while j < n and pat[j] != ']'] *)
Fixpoint to_bracket (s : string) : option (string * string) :=
  match s with
  | EmptyString => None
  | String c s' => if Ascii.eqb c "]" then Some ("", s')
                   else match to_bracket s' with Some (a, b) => Some (String c a, b) | None => None end
  end.
Definition eat (c : ascii) (s : string) : string * string :=
  match s with String a s' => if Ascii.eqb a c then (String c "", s') else ("", s) | EmptyString => ("", s) end.
(** what is between brackets, given the text after the opening one: a ']' does not close at once *)
Definition bracket (s : string) : option (string * string) :=
  let '(bang, s) := eat "!" s in
  let '(close, s) := eat "]" s in
  match to_bracket s with Some (a, b) => Some (bang ++ close ++ a, b) | None => None end.
(** fnmatch.translate; [n]: at least the length of [pat] *)
Fixpoint translate (n : nat) (pat : string) : list piece :=
  match n, pat with
  | S n, String c pat =>
      if Ascii.eqb c "*" then PMany :: translate n pat
      else if Ascii.eqb c "?" then POne :: translate n pat
      else if Ascii.eqb c "[" then
        match bracket pat with
        | Some (stuff, rest) => PSet stuff :: translate n rest
        | None => PChar c :: translate n pat
        end
      else PChar c :: translate n pat
  | _, _ => []
  end.
(** sre_parse on what translate wrote between brackets: characters and ranges; backslashes and a
    leading '^' have been escaped.  A range from a greater to a smaller character is a re.error,
    an exception that is none of pisi's, here EValue. *)
Fixpoint ranges (s : list ascii) : res (list (ascii * ascii)) :=
  match s with
  | [] => Ok []
  | x :: s' =>
      match s' with
      | d :: y :: s'' =>
          if Ascii.eqb d "-" then
            if (N_of_ascii y <? N_of_ascii x)%N then Err EValue else r <- ranges s'' ;; Ok ((x, y) :: r)
          else r <- ranges s' ;; Ok ((x, x) :: r)
      | _ => r <- ranges s' ;; Ok ((x, x) :: r)
      end
  end.
Inductive test := TOne (neg : bool) (rs : list (ascii * ascii)) | TChar (c : ascii) | TAny | TMany.
(** re.compile *)
Definition compile (p : piece) : res test :=
  match p with
  | PChar c => Ok (TChar c)
  | POne => Ok TAny
  | PMany => Ok TMany
  | PSet stuff =>
      let '(bang, s) := eat "!" stuff in
      r <- ranges (list_ascii_of_string s) ;; Ok (TOne (negb (String.eqb bang "")) r)
  end.
Definition in_ranges (c : ascii) (rs : list (ascii * ascii)) : bool :=
  existsb (fun xy => (N_of_ascii (fst xy) <=? N_of_ascii c)%N && (N_of_ascii c <=? N_of_ascii (snd xy))%N) rs.
Definition passes (t : test) (c : ascii) : bool :=
  match t with
  | TOne neg rs => xorb neg (in_ranges c rs)
  | TChar a => Ascii.eqb a c
  | TAny => true
  | TMany => false
  end.
(** re.match with '\Z' at the end: the whole text, newlines included *)
Fixpoint matches (ts : list test) (s : string) : bool :=
  match ts with
  | [] => String.eqb s ""
  | TMany :: ts =>
      (fix many (s : string) : bool :=
         matches ts s || match s with EmptyString => false | String _ s' => many s' end) s
  | t :: ts => match s with EmptyString => false | String c s' => passes t c && matches ts s' end
  end.
Definition fnmatch (name pat : string) : res bool :=
  ts <- Py.mapM compile (translate (String.length pat) pat) ;; Ok (matches ts name).

(** db/files.py 61-76 *)
Fixpoint matching (kvs : list (string * (string * finfo))) (glob : string) : res (list (string * (string * finfo))) :=
  match kvs with
  | [] => Ok []
  | kv :: kvs => b <- fnmatch (fst kv) glob ;; r <- matching kvs glob ;; Ok (if b : bool then kv :: r else r)
  end.
Definition match_files (db : filesdb) (glob : string) : res (list (string * (string * finfo))) :=
  matching (map_to_list db) glob.

(** ** The command *)
(** os.path.abspath.  Simplification: ".." is taken off before links are followed. *)
Definition names_in (p : string) : list string := List.filter (fun n => negb (String.eqb n "")) (py_split slash p).
Definition go (st : list string) (n : string) : list string :=
  if String.eqb n "." then st else if String.eqb n ".." then removelast st else (st ++ [n])%list.
Definition abspath (cwd p : string) : string :=
  "/" ++ String.concat "/" (fold_left go (names_in (os_join cwd p)) []).
(** os.path.realpath, for links as in Model/Fs.v; os.path.exists *)
Fixpoint resolve (n : nat) (f : fs) (p : string) : string :=
  match node_at f p with
  | Some (NLink t) => match n with O => p | S n => resolve n f t end
  | _ => p
  end.
Definition realpath (f : fs) (cwd p : string) : string := resolve 40 f (abspath cwd p).
Definition path_exists (f : fs) (cwd p : string) : bool := exists_ f (abspath cwd p).

Inductive line :=
| Help
| Searching (path : string)
| Has (package path : string)
| Details (type : string) (hash : option string)
| Nobody (path : string).
(** cli/search.py 99-119 *)
Definition search_exact (db : filesdb) (fuzzy long : bool) (path : string) : res (list line) :=
  let path := py_lstrip "/" path in
  files <- (if negb fuzzy then
              Ok (if has_file db path then match get_file db path with Some e => [(path, e)] | None => [] end else [])
            else match_files db path) ;;
  match files with
  | [] => Ok [Nobody path]
  | _ => Ok (flat_map (fun kf : string * (string * finfo) =>
                Has (fst (snd kf)) (fst kf) ::
                (if long then [Details (f_type (snd (snd kf))) (f_hash (snd (snd kf)))] else [])) files)
  end.
(** cli/search.py 121-135 *)
Fixpoint each_path (f : fs) (cwd : string) (db : filesdb) (fuzzy long : bool) (args : list string) : res (list line) :=
  match args with
  | [] => Ok []
  | a :: args =>
      let path := if path_exists f cwd a then realpath f cwd a else a in
      r <- search_exact db fuzzy long path ;;
      rs <- each_path f cwd db fuzzy long args ;;
      Ok (Searching a :: r ++ rs)%list
  end.
Definition search_file (f : fs) (cwd : string) (db : filesdb) (fuzzy long : bool) (args : list string) : res (list line) :=
  match args with [] => Ok [Help] | _ => each_path f cwd db fuzzy long args end.
