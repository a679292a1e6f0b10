(** * Stripping what was installed, and the packages made of what is left over

    pisi/util/fs.py 266-341 (strip_directory, strip_file), pisi/op/build.py 498-559
    (generate_static_package_object, generate_debug_package_object, strip_install_dir) and
    724-742 (the beginning of build_packages).

    Files are kept by absolute path with their contents; directories and links are left out
    (check_dir makes the directory objcopy writes to, fs.py 328, 335).  The programs strip,
    objcopy, sed and what file says are parameters.  Names of files go into command lines
    without quotes: of what a shell makes of them only the splitting at blanks is modelled, so
    the model is that of the program for names free of the other characters a shell gives a
    meaning to.  Messages are left out, and so are the values strip_file returns, which only
    choose among them. *)
From Coq Require Import String Ascii ZArith List.
From stdpp Require Import gmap strings.
From Verif Require Import Model.Py Model.Path Model.ArTimes.
Import ListNotations.
Open Scope string_scope.

(** [needle in s] *)
Fixpoint contains (needle s : string) : bool :=
  py_startswith s needle || match s with EmptyString => false | String _ r => contains needle r end.

(** os.path.splitext(p)[1]: nothing for a base name that has only dots before the last one *)
Fixpoint all_dots (s : string) : bool :=
  match s with EmptyString => true | String a s => Ascii.eqb a "." && all_dots s end.
Definition extension (p : string) : string :=
  let b := basename p in
  match py_rfind "." b with
  | Some n => if all_dots (py_take n b) then "" else py_drop n b
  | None => ""
  end.

(** The words of a command line *)
Definition is_blank (c : ascii) : bool := Ascii.eqb c " " || Ascii.eqb c (ascii_of_nat 9).
Definition word (cur : string) : list string := match cur with EmptyString => [] | _ => [cur] end.
Fixpoint words_after (cur s : string) : list string :=
  match s with
  | EmptyString => word cur
  | String c r => if is_blank c then (word cur ++ words_after "" r)%list else words_after (cur ++ String c "") r
  end.
Definition words (s : string) : list string := words_after "" s.

Notation files := (gmap string string).

Section strip.
  Context (cwd : string).
  Context (file_says : string -> string)                          (* what file says about such contents *)
          (strip_tool : string -> string -> option string)        (* strip with these flags; None when it fails *)
          (keep_debug : string -> option string)                  (* objcopy --only-keep-debug *)
          (add_link : string -> string -> string -> option string) (* objcopy --add-gnu-debuglink=NAME: name, contents of that file, contents *)
          (sed_libs sed_dirs : string -> string).                 (* the two sed scripts of fs.py 282-283 *)
  Context (generatedebug : bool).                                 (* ctx.config.values.build.generatedebug *)

  Definition resolve (w : string) : string := if py_startswith w "/" then w else cwd ++ "/" ++ w.

  (** A program that changes each of its operands, if it can *)
  Definition on_operands (f : string -> option string) (line : string) (fs : files) : files :=
    fold_left (fun fs w =>
      match fs !! resolve w with
      | Some c => match f c with Some c' => <[resolve w := c']> fs | None => fs end
      | None => fs
      end) (words line) fs.

  (** fs.py 303-307 *)
  Definition run_strip (f flags : string) (fs : files) : files := on_operands (strip_tool flags) f fs.

  (** fs.py 309-320: objcopy takes one or two operands.  The option with the name is one word
      with it, hence the first word of the second line. *)
  Definition debug_suffix : string := ".debug".     (* constants.py 47 *)
  Definition save_elf_debug (f o : string) (fs : files) : files :=
    let fs :=
      match words (f ++ " " ++ o ++ debug_suffix) with
      | [a; b] => match fs !! resolve a with
                  | Some c => match keep_debug c with Some d => <[resolve b := d]> fs | None => fs end
                  | None => fs
                  end
      | _ => fs
      end in
    match words (o ++ debug_suffix ++ " " ++ f) with
    | [b; a] => match fs !! resolve b, fs !! resolve a with
                | Some d, Some c => match add_link b d c with Some c' => <[resolve a := c']> fs | None => fs end
                | _, _ => fs
                end
    | _ => fs
    end.

  (** fs.py 298-341; the name is between quotes here *)
  Definition strip_file (filepath outpath : string) (fs : files) : files :=
    match fs !! filepath with
    | None => fs
    | Some c =>
        let o := filepath ++ ": " ++ file_says c in
        if contains "current ar archive" o then run_strip filepath "-g" fs
        else if contains "SB executable" o then
          run_strip filepath "" (if generatedebug then save_elf_debug filepath outpath fs else fs)
        else if contains "SB shared object" o then
          run_strip filepath "--strip-unneeded" (if generatedebug then save_elf_debug filepath outpath fs else fs)
        else fs
    end.

  (** util/fun.py 62-65 on strings; what os.walk gives begins with [top] *)
  Definition from_top (top frpath : string) : string := py_drop (String.length top) frpath.

  (** fs.py 268-295, for one file *)
  Definition debug_dir : string := "/debug".        (* constants.py 56 *)
  Definition strip_one (top : string) (excludelist : list string) (fs : files) (frpath : string) : files :=
    let drpath := join_path (dirname top) [debug_dir; from_top top frpath] in
    let fs :=
      if String.eqb (extension frpath) ".la"
      then on_operands (fun c => Some (sed_dirs c)) frpath (on_operands (fun c => Some (sed_libs c)) frpath fs)
      else fs in
    let p := "/" ++ from_top top frpath in
    if existsb (fun exclude => py_startswith p exclude) excludelist then fs else strip_file frpath drpath fs.

  Context (walk : string -> files -> list string).   (* the files os.walk comes to, in its order *)

  (** fs.py 266-267 *)
  Definition strip_directory (top : string) (excludelist : list string) (fs : files) : files :=
    fold_left (strip_one top excludelist) (walk top fs) fs.

  Context (pkg_dir : string).                        (* build.py 159-164 *)
  Definition pkg_install_dir : string := pkg_dir ++ "/install".   (* build.py 172-173, constants.py 55 *)
  Definition pkg_debug_dir : string := pkg_dir ++ debug_dir.      (* build.py 169-170 *)

  (** build.py 551-559: NoStrip of the action script, if there is one *)
  Definition strip_install_dir (nostrip : option (list string)) (fs : files) : files :=
    strip_directory pkg_install_dir (match nostrip with Some l => l | None => [] end) fs.

  (** build.py 498-522: there is no pisi.specfile (508), it is pisi.data.specfile.  The value is
      whether there is a package to be added, never so. *)
  Definition generate_static_package_object (fs : files) : res bool :=
    if existsb (fun f => py_endswith (basename f) ".a" &&
                         match fs !! f with Some c => is_ar_file (list_ascii_of_string c) | None => false end)
               (walk pkg_install_dir fs)
    then Err EAttribute else Ok false.
  (** build.py 524-549: the same at 534 *)
  Definition generate_debug_package_object (fs : files) : res bool :=
    if existsb (fun f => py_endswith (basename f) debug_suffix) (walk pkg_debug_dir fs)
    then Err EAttribute else Ok false.

  (** build.py 724-742: the files afterwards, and whether the packages are come to *)
  Definition prepare_packages (create_static : bool) (nostrip : option (list string)) (fs : files) : files * res unit :=
    let fs := strip_install_dir nostrip fs in
    (fs, _ <- (if create_static then generate_static_package_object fs else Ok false) ;;
         _ <- (if generatedebug then generate_debug_package_object fs else Ok false) ;;
         Ok tt).
End strip.
