(** * What goes into a package: pisi/op/build.py 51-93 and 593-639, pisi/util/fs.py 109-195

    From the directory a source was installed into and the path lists of its packages to the
    list of files of each package.

    Simplified: the installation directory is a tree in which a link says what it leads to;
    names that lead through a link are taken not to exist, and so are names outside of the
    directory.  Sizes are left out, and so is the rewriting of .a files before they are
    hashed.  Neither static nor debug packages are asked for. *)
From Coq Require Import String Ascii List Bool Arith.
From stdpp Require Import gmap strings.
From Verif Require Import Model.Py Model.Path.
Import ListNotations.
Open Scope string_scope.

(** What a link leads to, as os.path.isfile and os.path.isdir see it *)
Inductive leads : Type := ToFile (content : string) | ToDir | Nowhere.
Inductive node : Type :=
| NFile (content : string)
| NLink (target : string) (to : leads)
| NDir (entries : list (string * node)).      (* in the order of os.listdir *)

Fixpoint entry_of (n : string) (es : list (string * node)) : option node :=
  match es with
  | [] => None
  | (m, c) :: es => if String.eqb n m then Some c else entry_of n es
  end.
Fixpoint find_node (t : node) (p : list string) : option node :=
  match p with
  | [] => Some t
  | n :: p => match t with
              | NDir es => match entry_of n es with Some c => find_node c p | None => None end
              | _ => None
              end
  end.

(** The names of a path: the system does not mind repeated slashes *)
Definition names_of (path : string) : list string :=
  List.filter (fun n => negb (String.eqb n "")) (py_split slash path).

(** data/specfile.py 108-112 *)
Record pathinfo : Type := mkPathinfo { pi_path : string; pi_type : option string; pi_permanent : option string }.
(** data/files.py 19-28, without the path *)
Record fileinfo : Type := mkFileinfo { gi_type : option string; gi_permanent : option string; gi_hash : option string }.

(** ** glob.glob: stars and question marks; brackets are taken literally *)
Definition has_magic (s : string) : bool := char_in "*" s || char_in "?" s || char_in "[" s.
(** fnmatch.fnmatch *)
Fixpoint fnmatch (pat name : string) : bool :=
  match pat with
  | EmptyString => String.eqb name ""
  | String a pat' =>
      if Ascii.eqb a "*"
      then (fix star (name : string) : bool :=
              fnmatch pat' name || match name with EmptyString => false | String _ name' => star name' end) name
      else match name with
           | EmptyString => false
           | String b name' => (Ascii.eqb a "?" || Ascii.eqb a b) && fnmatch pat' name'
           end
  end.
(** glob.glob1: hidden names only if the pattern starts with a dot *)
Definition shown (pat name : string) : bool := py_startswith pat "." || negb (py_startswith name ".").
Fixpoint glob_names (t : node) (root : string) (pat : list string) : list string :=
  match pat with
  | [] => [root]
  | p :: pat =>
      match t with
      | NDir es =>
          if has_magic p
          then flat_map (fun e => if shown p (fst e) && fnmatch p (fst e)
                                  then glob_names (snd e) (root ++ "/" ++ fst e) pat else []) es
          else match entry_of p es with Some c => glob_names c (root ++ "/" ++ p) pat | None => [] end
      | _ => []
      end
  end.

(** [s.find(m) > -1] *)
Fixpoint occurs (m s : string) : bool :=
  py_startswith s m || match s with EmptyString => false | String _ s' => occurs m s' end.

(** [x.sort(reverse=True); x[0]] *)
Fixpoint greatest (l : list string) : option string :=
  match l with
  | [] => None
  | x :: l => match greatest l with
              | None => Some x
              | Some y => if String.leb x y then Some y else Some x
              end
  end.

Definition item : Type := string * option string.

Section install_dir.
  Context (sha1 : string -> string) (install : string) (t : node).

  (** The part of a name after the installation directory, and the node found there *)
  Definition inside (path : string) : option string :=
    if py_startswith path install then
      let rest := py_drop (String.length install) path in
      if String.eqb rest "" || py_startswith rest "/" then Some rest else None
    else None.
  Definition node_at (path : string) : option node :=
    match inside path with
    | None => None
    | Some rest => match find_node t (names_of rest) with
                   | Some (NDir es) => Some (NDir es)
                   | Some n => if py_endswith path "/" then None else Some n
                   | None => None
                   end
    end.
  Definition glob (pathname : string) : list string :=
    match inside pathname with
    | None => []
    | Some rest =>
        if has_magic rest then glob_names t install (names_of rest)
        else match node_at pathname with Some _ => [pathname] | None => [] end
    end.

  (** build.py 51-67: [Match], [matches], [best_matched_path], [info] *)
  Definition match_ (path : string) (x : string) : list string :=
    List.filter (fun m => occurs m (join_path install [path])) (glob (install ++ x)).
  Definition get_file_type (path : string) (pinfo_list : list pathinfo) : res (option string * option string) :=
    let matches := map pi_path (List.filter (fun pinfo => match match_ path (pi_path pinfo) with [] => false | _ => true end) pinfo_list) in
    match greatest matches with
    | None => Err EError
    | Some best =>
        match List.filter (fun pinfo => String.eqb best (pi_path pinfo)) pinfo_list with
        | [] => Err EIndex
        | info :: _ => Ok (pi_type info, pi_permanent info)
        end
    end.

  (** build.py 69-93; the package is known by its place in the list *)
  Definition others (i : nat) (pkgs : list (list pathinfo)) : list (list pathinfo) := (firstn i pkgs ++ skipn (S i) pkgs)%list.
  Definition check_path_collision (i : nat) (pkgs : list (list pathinfo)) : list string :=
    flat_map (fun pinfo =>
      flat_map (fun pkg =>
        flat_map (fun path => if subpath (pi_path pinfo) (pi_path path) then [pi_path path] else []) pkg)
        (others i pkgs))
      (nth i pkgs []).

  (** util/fs.py 144-150: remove_prefix's assertion holds for every name in the directory *)
  Definition has_excluded_prefix (excl : list string) (filename : string) : bool :=
    existsb (py_startswith (py_drop (String.length install) filename)) excl.

  (** util/fs.py 172-178, for the links among the directories *)
  Fixpoint link_dirs (root : string) (es : list (string * node)) (excl : list string) : list item * list string :=
    match es with
    | [] => ([], excl)
    | (n, NLink target ToDir) :: es =>
        let d := join_path root [n] in
        if has_excluded_prefix excl d then link_dirs root es excl
        else let r := link_dirs root es (excl ++ [(py_drop (String.length install) d ++ "/")%string])%list in
             ((d, Some (sha1 target)) :: fst r, snd r)
    | _ :: es => link_dirs root es excl
    end.
  (** util/fs.py 187-195 *)
  Fixpoint plain_files (root : string) (es : list (string * node)) (excl : list string) : list item :=
    match es with
    | [] => []
    | (n, c) :: es =>
        let f := join_path root [n] in
        let rest := plain_files root es excl in
        match c with
        | NDir _ | NLink _ ToDir => rest
        | NLink target _ => if has_excluded_prefix excl f then rest else (f, Some (sha1 target)) :: rest
        | NFile content => if has_excluded_prefix excl f then rest else (f, Some (sha1 content)) :: rest
        end
    end.
  (** util/fs.py 163-195 with os.walk(top, topdown=False), which does not enter links, so that
      [root] is never one (164-169).  Lines 181-185: the inner walk ends with [parent] itself;
      sha1_sum of a directory is None (120-142). *)
  Fixpoint walk (root : string) (t : node) (excl : list string) {struct t} : list item * list string :=
    match t with
    | NDir es =>
        let below :=
          (fix go (es : list (string * node)) (excl : list string) {struct es} : list item * list string :=
             match es with
             | [] => ([], excl)
             | (n, c) :: es =>
                 match c with
                 | NDir _ => let r := walk (join_path root [n]) c excl in
                             let r2 := go es (snd r) in ((fst r ++ fst r2)%list, snd r2)
                 | _ => go es excl
                 end
             end) es excl in
        let links := link_dirs root es (snd below) in
        let own := match es with
                   | [] => if has_excluded_prefix (snd links) root then [] else [(root, None)]
                   | _ => []
                   end in
        ((fst below ++ fst links ++ own ++ plain_files root es (snd links))%list, snd links)
    | _ => ([], excl)
    end.
  (** util/fs.py 152-195: with the list of excluded prefixes afterwards, which the caller shares *)
  Definition get_file_hashes (top : string) (excl : list string) : list item * list string :=
    match node_at top with
    | Some (NFile c) | Some (NLink _ (ToFile c)) => ([(top, Some (sha1 c))], excl)
    | Some (NLink target _) => ([(top, Some (sha1 target))], excl)
    | Some (NDir es) => walk top (NDir es) excl
    | None => ([], excl)
    end.

  (** build.py 612-627 *)
  Definition add_file (pinfos : list pathinfo) (d : gmap string fileinfo) (it : item) : res (gmap string fileinfo) :=
    frpath <- removepathprefix install (fst it) ;;
    tp <- get_file_type frpath pinfos ;;
    Ok (<[ frpath := mkFileinfo (fst tp) (snd tp) (snd it) ]> d).
  Definition add_path (pinfos : list pathinfo) (st : gmap string fileinfo * list string) (path : string)
    : res (gmap string fileinfo * list string) :=
    let r := get_file_hashes path (snd st) in
    d <- foldM (add_file pinfos) (fst r) (fst st) ;;
    Ok (d, snd r).
  (** build.py 593-639: the files of the package at place [i] *)
  Definition gen_files_xml (pkgs : list (list pathinfo)) (i : nat) : res (gmap string fileinfo) :=
    let pinfos := nth i pkgs [] in
    r <- foldM (fun st pinfo => foldM (add_path pinfos) (glob (join_path install [pi_path pinfo])) st)
           pinfos (∅, check_path_collision i pkgs) ;;
    Ok (fst r).
End install_dir.
