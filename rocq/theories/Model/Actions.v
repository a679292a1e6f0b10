(** * What action scripts do with files: pisi/actionsapi/pisitools.py, shelltools.py,
      pisitoolsfunctions.py

    The file system is that of Model/Fs.v, but here paths are followed through symbolic links, as
    the kernel does.  The user is root (nothing is forbidden). *)
From Coq Require Import String Ascii ZArith List Bool.
From stdpp Require Import gmap strings.
From Verif Require Import Model.Py Model.InstallDB Model.Path Model.Fs Model.Trace.
Import ListNotations.
Open Scope string_scope.
Open Scope prog_scope.

(** ** Paths *)
Definition child (d name : string) : string := if String.eqb d "/" then "/" ++ name else d ++ "/" ++ name.
(** One step after another from directory [cur]; at most [k] links are followed (the kernel
    follows 40), one at the end only if [fl]. *)
Fixpoint walk (k : nat) (fl : bool) (f : fs) (cur : string) (names : list string) {struct k} : option string :=
  (fix go (cur : string) (names : list string) {struct names} : option string :=
     match names with
     | [] => Some cur
     | c :: names =>
         if String.eqb c "" || String.eqb c "." then go cur names
         else if String.eqb c ".." then go (dirname cur) names
         else
           match node_at f (child cur c) with
           | Some NDir => go (child cur c) names
           | Some (NLink t) =>
               match names, fl with
               | [], false => Some (child cur c)
               | _, _ => match k with
                         | O => None
                         | S k => walk k fl f (if py_startswith t "/" then "/" else cur) (py_split "/" t ++ names)%list
                         end
               end
           | Some _ => match names with [] => Some (child cur c) | _ => None end
           | None => if forallb (String.eqb "") names then Some (child cur c) else None
           end
     end) cur names.

Section actions.
  Variable cwd : string.                            (* os.getcwd() *)
  Variable root : string.                           (* get.installDIR() *)
  Variable src : string.                            (* get.sourceDIR() *)
  Variable tag : string.                            (* get.srcTAG() *)
  Variable ignore : bool.                           (* --ignore-action-errors *)
  Variable expand : fs -> string -> list string.    (* glob.glob of a pattern with wild cards *)
  Variable runs : string -> fs -> bool.             (* the command install succeeds with this file *)

  (** The empty path leads nowhere. *)
  Definition locate (fl : bool) (f : fs) (p : string) : option string :=
    if String.eqb p "" then None
    else walk 40 fl f (if py_startswith p "/" then "/" else cwd) (py_split "/" p).
  Definition os_lstat (f : fs) (p : string) : option node := match locate false f p with Some q => node_at f q | None => None end.
  Definition os_stat (f : fs) (p : string) : option node := match locate true f p with Some q => node_at f q | None => None end.
  (** os.path.exists, isdir, isfile, islink, lexists; os.access *)
  Definition e_exists (f : fs) (p : string) : bool := match os_stat f p with Some _ => true | None => false end.
  Definition e_isdir (f : fs) (p : string) : bool := match os_stat f p with Some NDir => true | _ => false end.
  Definition e_isfile (f : fs) (p : string) : bool := match os_stat f p with Some (NFile _) => true | _ => false end.
  Definition e_islink (f : fs) (p : string) : bool := match os_lstat f p with Some (NLink _) => true | _ => false end.
  Definition e_lexists (f : fs) (p : string) : bool := match os_lstat f p with Some _ => true | None => false end.
  (** glob.glob *)
  Definition has_magic (p : string) : bool := char_in "*" p || char_in "?" p || char_in "[" p.
  Definition glob (f : fs) (p : string) : list string :=
    if has_magic p then expand f p else if e_lexists f p then [p] else [].

  (** ** os *)
  Definition os_mkdir (p : string) : prog fs unit :=
    f <~ ask (fun f => f) ;;
    match locate false f p with
    | Some q => match node_at f q with None => change (fun f => <[ q := NDir ]> f) | Some _ => raise EOS end
    | None => raise EOS
    end.
  (** os.makedirs; [n] bounds the depth.  An error of the inner call that is only EEXIST is
      followed by an error of mkdir. *)
  Fixpoint os_makedirs (n : nat) (p : string) : prog fs unit :=
    match n with
    | O => raise EFuel
    | S n =>
        let p' := if String.eqb (basename p) "" then dirname p else p in
        f <~ ask (fun f => f) ;;
        if negb (String.eqb (dirname p') "") && negb (String.eqb (basename p') "") && negb (e_exists f (dirname p'))
        then _ <~ os_makedirs n (dirname p') ;; os_mkdir p
        else os_mkdir p
    end.
  Definition os_symlink (target p : string) : prog fs unit :=
    f <~ ask (fun f => f) ;;
    match locate false f p with
    | Some q => match node_at f q with None => change (fun f => <[ q := NLink target ]> f) | Some _ => raise EOS end
    | None => raise EOS
    end.
  Definition os_unlink (p : string) : prog fs unit :=
    f <~ ask (fun f => f) ;;
    match locate false f p with
    | Some q => match node_at f q with None | Some NDir => raise EOS | Some _ => change (fun f => delete q f) end
    | None => raise EOS
    end.
  (** What is at [a] or below goes to [b]. *)
  Definition moved (f : fs) (a b : string) : fs :=
    filter (fun kv : string * node => under a kv.1 = false /\ under b kv.1 = false) f ∪
    list_to_map (map (fun kv : string * node => (b ++ py_drop (String.length a) kv.1, kv.2)) (map_to_list (filter (fun kv : string * node => under a kv.1 = true) f))).
  Definition os_rename (a b : string) : prog fs unit :=
    f <~ ask (fun f => f) ;;
    match locate false f a, locate false f b with
    | Some qa, Some qb =>
        if String.eqb qa qb then (match node_at f qa with Some _ => ret tt | None => raise EOS end)
        else if String.eqb qa "/" || String.eqb qb "/" then raise EOS
        else match node_at f qa, node_at f qb with
             | None, _ => raise EOS
             | Some NDir, None => if under qa qb then raise EOS else change (fun f => moved f qa qb)
             | Some NDir, Some NDir =>
                 if under qa qb || negb (match children f qb with [] => true | _ => false end) then raise EOS else change (fun f => moved f qa qb)
             | Some NDir, Some _ => raise EOS
             | Some _, Some NDir => raise EOS
             | Some _, _ => change (fun f => moved f qa qb)
             end
    | _, _ => raise EOS
    end.
  (** open(p, "wb") and writing: an existing link is followed *)
  Definition os_write (p c : string) : prog fs unit :=
    f <~ ask (fun f => f) ;;
    match locate true f p with
    | Some q => match node_at f q with Some NDir => raise EOS | _ => change (fun f => <[ q := NFile c ]> f) end
    | None => raise EOS
    end.

  (** ** shutil *)
  Definition shutil_copy (a b : string) : prog fs unit :=
    f <~ ask (fun f => f) ;;
    match os_stat f a with
    | Some (NFile c) => os_write (if e_isdir f b then child b (basename a) else b) c
    | _ => raise EOS
    end.
  (** Python refuses to remove a link to a directory as a tree. *)
  Definition shutil_rmtree (p : string) : prog fs unit :=
    f <~ ask (fun f => f) ;;
    match locate false f p with
    | Some q => match node_at f q with Some NDir => if String.eqb q "/" then raise EOS else change (fun f => rmtree f q) | _ => raise EOS end
    | None => raise EOS
    end.
  (** Within one file system; shutil.Error (not an OSError) is [EValue]. *)
  Definition shutil_move (a b : string) : prog fs unit :=
    f <~ ask (fun f => f) ;;
    if e_isdir f b then
      if bool_decide (locate true f a = locate true f b) then os_rename a b
      else let b' := (if py_endswith b "/" then b else b ++ "/") ++ basename (py_rstrip "/" a) in
           if e_exists f b' then raise EValue else os_rename a b'
    else os_rename a b.
  (** shutil.copytree with symlinks=True, as one step: the directories above are made first *)
  Definition grafted (f : fs) (a b : string) : fs :=
    list_to_map (map (fun kv : string * node => (b ++ py_drop (String.length a) kv.1, kv.2)) (map_to_list (filter (fun kv : string * node => under a kv.1 = true) f))) ∪ f.
  Definition shutil_copytree (a b : string) : prog fs unit :=
    _ <~ os_makedirs (S (String.length b)) b ;;
    f <~ ask (fun f => f) ;;
    match locate true f a, locate true f b with
    | Some qa, Some qb => match node_at f qa with Some NDir => change (fun f => grafted f qa qb) | _ => raise EOS end
    | _, _ => raise EOS
    end.

  (** ** shelltools.py *)
  (** __init__.py 23-27 *)
  Definition error : prog fs unit := if ignore then ret tt else raise EError.
  Definition is_os_error (e : exn) : bool := match e with EOS => true | _ => false end.
  Definition or_error (p : prog fs unit) : prog fs unit := try_except p is_os_error error.
  (** shelltools.py 45-51 *)
  Definition makedirs (p : string) : prog fs unit :=
    f <~ ask (fun f => f) ;; if e_exists f p then ret tt else or_error (os_makedirs (S (String.length p)) p).
  (** shelltools.py 91-101: a failure of os.unlink is only a message *)
  Definition unlink (p : string) : prog fs unit :=
    f <~ ask (fun f => f) ;;
    if e_isfile f p || e_islink f p then try_except (os_unlink p) is_os_error (ret tt) else ret tt.
  (** shelltools.py 103-113 *)
  Definition unlinkDir (p : string) : prog fs unit :=
    f <~ ask (fun f => f) ;;
    if e_isdir f p || e_islink f p then or_error (shutil_rmtree p)
    else if e_isfile f p then ret tt else error.
  (** shelltools.py 115-124 *)
  Definition move (a b : string) : prog fs unit :=
    f <~ ask (fun f => f) ;;
    each (fun p => f <~ ask (fun f => f) ;; if e_isfile f p || e_islink f p || e_isdir f p then or_error (shutil_move p b) else error) (glob f a).
  (** shelltools.py 151-166, for sym=True; [n] bounds the nesting *)
  Fixpoint copytree (n : nat) (a b : string) : prog fs unit :=
    match n with
    | O => raise EFuel
    | S n =>
        f <~ ask (fun f => f) ;;
        if e_isdir f a then
          if e_exists f b then copytree n a (join_path2 b (basename (if e_isdir f b then py_rstrip "/" (py_lstrip "/" a) else a)))
          else or_error (shutil_copytree a b)
        else error
    end.
  (** shelltools.py 126-149, for sym=True.  An OSError of os.symlink and os.remove is not caught;
      an IOError of shutil.copy is. *)
  Definition copy_one (p b : string) : prog fs unit :=
    f <~ ask (fun f => f) ;;
    if e_isfile f p && negb (e_islink f p) then or_error (shutil_copy p b)
    else if e_islink f p then
      match os_lstat f p with
      | Some (NLink t) =>
          if e_isdir f b then os_symlink t (join_path2 b (basename p))
          else _ <~ (if e_isfile f b then os_unlink b else ret tt) ;; os_symlink t b
      | _ => raise EOS
      end
    else if e_isdir f p then copytree (S (size f)) p b
    else error.
  Definition copy (a b : string) : prog fs unit :=
    f <~ ask (fun f => f) ;; each (fun p => copy_one p b) (glob f a).

  (** ** pisitoolsfunctions.py *)
  (** The command install, whose outcome is not looked at.  Into a directory, or onto a name; what
      is in the way is unlinked first. *)
  Definition install_cmd (a d : string) : prog fs unit :=
    f <~ ask (fun f => f) ;;
    match os_stat f a with
    | Some (NFile c) =>
        let target := match locate true f d with
                      | Some q => match node_at f q with Some NDir => Some (child q (basename a)) | _ => locate false f d end
                      | None => None
                      end in
        match target with
        | Some q => match node_at f q with
                    | Some NDir => ret tt
                    | _ => if runs a f then change (fun f => <[ q := NFile c ]> f) else ret tt
                    end
        | None => ret tt
        end
    | _ => ret tt
    end.
  (** pisitoolsfunctions.py 45-82, executable_insinto and readable_insinto: [can_access_directory] is true of existing directories, for
      which [makedirs] does nothing. *)
  Definition insert_into (d : string) (sources : list string) : prog fs unit :=
    if String.eqb d "" || match sources with [] => true | _ => false end then raise EError
    else
      _ <~ makedirs d ;;
      each (fun s => f <~ ask (fun f => f) ;; each (fun p => install_cmd p d) (glob f (join_path2 src s))) sources.
  (** pisitoolsfunctions.py 84-96; os.path.join with an absolute second part is that part *)
  Definition lib_insinto (a d : string) : prog fs unit :=
    _ <~ makedirs d ;;
    f <~ ask (fun f => f) ;;
    if e_islink f a then
      match locate true f a with
      | Some real => os_symlink real (if py_startswith a "/" then a else child d a)
      | None => os_symlink a (if py_startswith a "/" then a else child d a)
      end
    else install_cmd a d.

  (** ** pisitools.py *)
  (** 50-52 *)
  Definition dodir (d : string) : prog fs unit := makedirs (join_path2 root d).
  (** 41-48, 61-64, 198-202: dobin, doexe, dosbin *)
  Definition dobin (s d : string) : prog fs unit := insert_into (join_path2 root d) [s].
  (** 54-59 *)
  Definition dodoc (l : list string) : prog fs unit := insert_into (join_path root ["/usr/share/doc"; tag]) l.
  (** 93-95 *)
  Definition doinfo (l : list string) : prog fs unit := insert_into (join_path2 root "usr/share/info") l.
  (** 97-123: dolib, dolib_a, dolib_so *)
  Definition dolib (s d : string) : prog fs unit := lib_insinto (join_path2 cwd s) (join_path2 root d).
  (** 125-142; if the error is ignored, the name of the section is not set: NameError *)
  Definition section_of (p : string) : option string := match py_rfind "." p with Some n => Some (py_drop (S n) p) | None => None end.
  Definition doman (l : list string) : prog fs unit :=
    let man := join_path2 root "usr/share/man" in
    _ <~ makedirs man ;;
    each (fun s => f <~ ask (fun f => f) ;;
      each (fun p => match section_of p with
                     | None => if ignore then raise EName else raise EError
                     | Some sec => _ <~ makedirs (join_path2 man ("/man" ++ sec)) ;; install_cmd p (join_path2 man ("/man" ++ sec))
                     end) (glob f s)) l.
  (** 153-164 *)
  Definition domove (s d name : string) : prog fs unit :=
    _ <~ makedirs (join_path2 root d) ;;
    f <~ ask (fun f => f) ;;
    each (fun p => move p (join_path2 root (join_path2 d (if String.eqb name "" then basename p else name)))) (glob f (join_path2 root s)).
  (** 166-179 *)
  Definition rename (s name : string) : prog fs unit :=
    or_error (os_rename (join_path2 root s) (join_path root [dirname s; name])).
  (** 204-213 *)
  Definition dosym (target p : string) : prog fs unit :=
    _ <~ makedirs (join_path2 root (dirname p)) ;; or_error (os_symlink target (join_path2 root p)).
  (** 215-224, for sym=True *)
  Definition insinto (d s name : string) : prog fs unit :=
    _ <~ makedirs (join_path2 root d) ;;
    if String.eqb name "" then
      f <~ ask (fun f => f) ;;
      each (fun p => f <~ ask (fun f => f) ;; if e_exists f p then copy p (join_path2 root (join_path2 d (basename p))) else ret tt) (glob f s)
    else copy s (join_path2 root (join_path2 d name)).
  (** 241-249 *)
  Definition remove (s : string) : prog fs unit := f <~ ask (fun f => f) ;; each unlink (glob f (join_path2 root s)).
  Definition removeDir (s : string) : prog fs unit := f <~ ask (fun f => f) ;; each unlinkDir (glob f (join_path2 root s)).
End actions.
