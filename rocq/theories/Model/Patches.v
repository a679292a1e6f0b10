(** * Patching a source

    pisi/op/build.py 481-496 (apply_patches), pisi/util/fs.py 222-262 (uncompress, do_patch),
    fs.py 32-36 (check_file) and pisi/util/process.py 25-34 (run_batch).

    The files patches are read from and written to are kept by absolute path with their
    contents, apart from the source tree, which is whatever the program patch works on; directories and
    links are left out.  The programs patch, gzip and bzip2 are parameters.  The command goes to
    a shell without quotes: of what the shell makes of it the splitting at blanks and the word <
    are modelled, so the model is that of the program for names free of the other characters a
    shell gives a meaning to.  Messages are left out. *)
From Coq Require Import String Ascii ZArith List.
From stdpp Require Import gmap strings.
From Verif Require Import Model.Py Model.Path Model.Strip Model.Trace.
Import ListNotations.
Open Scope string_scope.
Open Scope prog_scope.

(** data/specfile.py 66-71 *)
Record patch_entry := mkPatch {
  pt_filename : string;
  pt_compression : option string;
  pt_level : option Z;
  pt_target : option string
}.

(** What the shell takes a line for: the words of the command, and the file it reads from *)
Fixpoint command_of (ws : list string) : option (list string * option string) :=
  match ws with
  | [] => Some ([], None)
  | w :: ws =>
      if String.eqb w "<" then
        match ws with
        | f :: ws => match command_of ws with
                     | Some (args, None) => Some (args, Some f)
                     | r => r                      (* the last one counts *)
                     end
        | [] => None
        end
      else match command_of ws with Some (args, i) => Some (w :: args, i) | None => None end
  end.

Section patches.
  Context {T : Type}.                                            (* source trees *)
  Context (patch : list string -> string -> T -> bool * T)       (* patch: arguments, what it reads; whether it succeeds, what it leaves *)
          (gunzip bunzip2 : string -> option string).            (* None for what is not such a file *)
  Context (src_dir files_dir tmp_dir : string)                   (* self.srcDir, the files directory as abspath gives it, ctx.config.tmp_dir() *)
          (src_there : bool).                                    (* whether there is a directory src_dir *)

  (** The files kept, the source tree, and os.getcwd() *)
  Record desk := mkDesk { kept : files; source : T; place : string }.
  Definition set_kept (k : files) (d : desk) : desk := mkDesk k (source d) (place d).
  Definition set_source (t : T) (d : desk) : desk := mkDesk (kept d) t (place d).
  Definition set_place (p : string) (d : desk) : desk := mkDesk (kept d) (source d) p.
  Definition lookup_file (f : string) (d : desk) : option string := kept d !! Strip.resolve (place d) f.

  (** process.py 25-34: the status only, true for 0 *)
  Definition run_batch (line : string) : prog desk bool :=
    d <~ ask id ;;
    match command_of (words line) with
    | Some (cmd :: args, Some f) =>
        if String.eqb cmd "patch" then
          match lookup_file f d with
          | Some text => let '(ok, t) := patch args text (source d) in
                         _ <~ change (set_source t) ;; ret ok
          | None => ret false
          end
        else ret false
    | _ => ret false
    end.

  (** fs.py 222-240.  The file is opened for writing, and so made empty, before the other one is
      read; obj is not bound for other types. *)
  Definition uncompress (file compress : string) : prog desk string :=
    let path := join_path tmp_dir [basename file] in
    d <~ ask id ;;
    unzip <~ (if String.eqb compress "gz" then
                match lookup_file file d with Some _ => ret (Some gunzip) | None => raise EOS end
              else if String.eqb compress "bz2" then
                match lookup_file file d with Some _ => ret (Some bunzip2) | None => raise EOS end
              else ret None) ;;
    _ <~ change (fun d => set_kept (<[Strip.resolve (place d) path := ""]> (kept d)) d) ;;
    match unzip with
    | None => raise EName
    | Some f =>
        d <~ ask id ;;
        match lookup_file file d with
        | Some c => match f c with
                    | Some text => _ <~ change (fun d => set_kept (<[Strip.resolve (place d) path := text]> (kept d)) d) ;; ret path
                    | None => raise EOS
                    end
        | None => raise EOS
        end
    end.

  (** fs.py 243-262 *)
  Definition do_patch (file : string) (level : Z) (target : option string) : prog desk unit :=
    cwd <~ ask place ;;
    if negb src_there then raise EOS
    else
      _ <~ change (set_place src_dir) ;;
      d <~ ask id ;;
      match lookup_file file d with
      | None => raise EError
      | Some _ =>
          ok <~ run_batch ("patch -p" ++ str_of_Z level ++ " " ++ default "" target ++ " < " ++ file) ;;
          if (ok : bool) then change (set_place cwd) else raise EError
      end.

  Definition given (o : option string) : option string :=
    match o with Some "" => None | o => o end.
  (** build.py 486-496 *)
  Definition apply_patch (p : patch_entry) : prog desk unit :=
    let file := join_path files_dir [pt_filename p] in
    file <~ match given (pt_compression p) with
            | Some c => uncompress file c
            | None => ret file
            end ;;
    do_patch file (default 0%Z (pt_level p)) (pt_target p).
  (** build.py 481-496 *)
  Definition apply_patches (ps : list patch_entry) : prog desk unit := each apply_patch ps.
End patches.
Arguments desk : clear implicits.
