(** * The file system, as far as installing and removing packages touch it

    The os and os.path functions pisi calls, pisi/util/fs.py 38-49 and 201-211, the file part
    of pisi/op/remove.py 93-130, pisi/archive.py 103-130 and 225-285 and
    pisi/data/package.py 119-125.

    A file system maps absolute path names to nodes.  Simplifications: a path that leads
    through a symbolic link to a directory is not the same as the path it stands for, link
    targets are absolute, and owners, modes and the disk filling up are left out. *)
From Coq Require Import String Ascii ZArith List.
From stdpp Require Import gmap strings.
From Verif Require Import Model.Py Model.InstallDB Model.Path.
Open Scope string_scope.

Inductive node :=
| NFile (content : string)
| NDir
| NLink (target : string)
| NOther.                     (* device, socket, ... *)
Global Instance node_eq_dec : EqDecision node.
Proof. solve_decision. Defined.
Notation fs := (gmap string node).

(** lstat *)
Definition node_at (f : fs) (p : string) : option node :=
  if String.eqb p "/" then Some NDir else f !! p.
(** stat: at most [n] links are followed (the kernel follows 40) *)
Fixpoint follow (n : nat) (f : fs) (p : string) : option node :=
  match node_at f p with
  | Some (NLink t) => match n with O => None | S n => follow n f t end
  | o => o
  end.
Definition stat (f : fs) (p : string) : option node := follow 40 f p.

Definition exists_ (f : fs) (p : string) : bool := match stat f p with Some _ => true | None => false end.
Definition isfile (f : fs) (p : string) : bool := match stat f p with Some (NFile _) => true | _ => false end.
Definition isdir (f : fs) (p : string) : bool := match stat f p with Some NDir => true | _ => false end.
Definition islink (f : fs) (p : string) : bool := match node_at f p with Some (NLink _) => true | _ => false end.

(** os.listdir; links to directories are not followed *)
Definition children (f : fs) (d : string) : list string :=
  List.filter (fun q => String.eqb (dirname q) d) (map fst (map_to_list f)).
Definition listdir (f : fs) (d : string) : res (list string) :=
  match node_at f d with Some NDir => Ok (children f d) | _ => Err EOS end.

(** os.unlink *)
Definition unlink (f : fs) (p : string) : res fs :=
  match node_at f p with Some NDir | None => Err EOS | Some _ => Ok (delete p f) end.
(** os.rmdir *)
Definition rmdir (f : fs) (p : string) : res fs :=
  match node_at f p, children f p with
  | Some NDir, [] => if String.eqb p "/" then Err EOS else Ok (delete p f)
  | _, _ => Err EOS
  end.
(** os.rename of something that is not a directory (pisi never renames a directory here) *)
Definition rename (f : fs) (a b : string) : res fs :=
  match node_at f a, node_at f b, node_at f (dirname b) with
  | None, _, _ | Some NDir, _, _ | _, Some NDir, _ => Err EOS
  | Some x, _, Some NDir => Ok (<[b := x]> (delete a f))
  | _, _, _ => Err EOS
  end.
(** os.makedirs: the missing directories up to [d]; [n] bounds the depth *)
Fixpoint makedirs (n : nat) (f : fs) (d : string) : res fs :=
  match node_at f d with
  | Some NDir => Ok f
  | Some _ => Err EOS
  | None =>
      match n with
      | O => Err EOS
      | S n => f1 <- makedirs n f (dirname d) ;; Ok (<[d := NDir]> f1)
      end
  end.
(** util/fs.py 38-43: check_dir *)
Definition check_dir (f : fs) (d : string) : res fs := makedirs (String.length d) f d.
(** shutil.rmtree *)
Definition under (d q : string) : bool := String.eqb q d || py_startswith q (d ++ "/").
Definition rmtree (f : fs) (d : string) : fs :=
  filter (fun kv : string * node => under d kv.1 = false) f.

(** util/fs.py 201-211: None stands for FileError *)
Definition sha1_file (sha1 : string -> string) (f : fs) (p : string) : option string :=
  match stat f p with Some (NFile c) => Some (sha1 c) | _ => None end.

(** ** Removing a file of a package *)

(** op/remove.py 126-130: the loop "remove emptied directories"; [n] bounds the depth *)
Fixpoint prune (n : nat) (f : fs) (d : string) : res fs :=
  if String.eqb d "/" then Ok f
  else match n with
       | O => Err EFuel
       | S n =>
           l <- listdir f d ;;
           match l with
           | [] => f1 <- rmdir f d ;; prune n f1 (dirname d)
           | _ => Ok f
           end
       end.

(** op/remove.py 93-130, for package [pkg].  The whole is one step: what a crash leaves
    between the unlink and the rmdirs is not looked at. *)
Definition remove_file (sha1 : string -> string) (dest : string) (owners : filesdb)
    (pkg : string) (fi : finfo) (f : fs) : res fs :=
  let fpath := join_path dest [f_path fi] in
  let other := match get_file owners fpath with
               | Some (p, _) => negb (String.eqb p pkg)
               | None => false
               end in
  if other then Ok f
  else if truthy (f_permanent fi) then Ok f
  else if String.eqb (f_type fi) "config" then
    match sha1_file sha1 f fpath with
    | Some h => if bool_decide (Some h = f_hash fi) then unlink f fpath else Ok f
    | None => Ok f
    end
  else
    f1 <- (if isfile f fpath || islink f fpath then f1 <- unlink f fpath ;; Ok (Some f1)
           else if isdir f fpath then
             l <- listdir f fpath ;;
             match l with [] => f1 <- rmdir f fpath ;; Ok (Some f1) | _ => Ok None end
           else Ok None) ;;
    match f1 with
    | None => Ok f
    | Some f1 => prune (String.length fpath) f1 (dirname fpath)
    end.

(** ** Unpacking *)
Inductive entry := AFile (content : string) | ADir | ALink (target : string).
Global Instance entry_eq_dec : EqDecision entry.
Proof. solve_decision. Defined.

(** The two package formats: in 1.0 the files are members "install/..." of the zip file, in 1.1
    they are in a tar file that is a member of the zip file (op/build.py 817-837) *)
Inductive format := Zip | Tar.

(** archive.py 225-285, one member of the archive (zip); [path] is its name below
    "install/" *)
Definition unpack_zip (dest : string) (pe : string * entry) (f : fs) : res fs :=
  let ofile := join_path dest [pe.1] in
  match pe.2 with
  | ADir => if isdir f ofile then Ok f else makedirs (String.length ofile) f ofile
  | _ =>
      f1 <- check_dir f (dirname ofile) ;;
      f2 <- (if isfile f1 ofile || islink f1 ofile then unlink f1 ofile else Ok f1) ;;
      match pe.2 with
      | ALink t =>
          let f3 := if isdir f2 ofile then rmtree f2 ofile else f2 in
          match node_at f3 ofile with None => Ok (<[ofile := NLink t]> f3) | Some _ => Err EOS end
      | AFile c =>
          match node_at f2 ofile with
          | Some NDir => Err EOS
          | _ => Ok (<[ofile := NFile c]> f2)
          end
      | ADir => Ok f2
      end
  end.

(** archive.py 110-127, one member of install.tar: what is in the way is unlinked first (a
    failure is only a warning), then tarfile's extract (Python 2.7: the missing directories
    above; mkdir, where an existing name is no error; open for writing; an existing name is
    unlinked and the link made). *)
Definition unpack_tar (dest : string) (pe : string * entry) (f : fs) : res fs :=
  let ofile := join_path dest [pe.1] in
  let f1 := if isfile f ofile || islink f ofile then match unlink f ofile with Ok f1 => f1 | Err _ => f end else f in
  f2 <- check_dir f1 (dirname ofile) ;;
  match pe.2 with
  | ADir => match node_at f2 ofile with None => Ok (<[ofile := NDir]> f2) | Some _ => Ok f2 end
  | AFile c => match node_at f2 ofile with Some NDir => Err EOS | _ => Ok (<[ofile := NFile c]> f2) end
  | ALink t => match node_at f2 ofile with Some NDir => Err EOS | _ => Ok (<[ofile := NLink t]> f2) end
  end.

(** data/package.py 119-125: extract_install, one member *)
Definition unpack_one (fmt : format) : string -> string * entry -> fs -> res fs :=
  match fmt with Zip => unpack_zip | Tar => unpack_tar end.
