(** * Archives: pisi/archive.py, and what zipfile and tarfile (Python 2.7) do for it

    The file system is that of Model/Actions.v, where paths are followed through symbolic links;
    here the permission bits are kept as well.  The user is root.  How an archive is written in
    a file (compression, time stamps, owners) is left out, and so are hard links, which are packed
    as files. *)
From Coq Require Import String Ascii ZArith NArith List Bool.
From stdpp Require Import gmap strings.
From Verif Require Import Model.Py Model.InstallDB Model.Path Model.Fs Model.Trace Model.Actions Model.Index.
Import ListNotations.
Open Scope string_scope.
Open Scope prog_scope.

(** ** Files with permissions *)
Record disk := mkDisk { nodes : fs; modes : gmap string N }.
Definition mode_of (d : disk) (p : string) : N := default 0%N (modes d !! p).

(** A member of a zip file: its name, external_attr and data *)
Record member := mkMember { m_name : string; m_attr : N; m_data : string }.
(** A member of a tar file *)
Record tmember := mkTar { t_name : string; t_mode : N; t_what : entry }.

(** archive.py 168: [symmagic] *)
Definition symmagic : N := 0xA1ED0000.

(** os.path.normpath, and the leading slashes zipfile's write takes off *)
Definition norm_step (absolute : bool) (acc : list string) (c : string) : list string :=
  if String.eqb c "" || String.eqb c "." then acc
  else if negb (String.eqb c "..") || (negb absolute && match acc with [] => true | _ => false end) || String.eqb (List.last acc "") ".." then (acc ++ [c])%list
  else removelast acc.
Definition zip_name (p : string) : res string :=
  let abs := py_startswith p "/" in
  let path := py_join "/" (fold_left (norm_step abs) (py_split "/" p) []) in
  if String.eqb path "" then (if abs then Err EIndex else Ok ".") else Ok path.

Section archive.
  Variable cwd : string.                                        (* os.getcwd() *)
  Variable umask : N.
  Variable order : string -> list string -> list string.        (* the order os.listdir gives *)

  (** What is new gets the permissions of the umask, what was there keeps its own. *)
  Definition new_mode (n : node) : N :=
    match n with
    | NDir => N.ldiff 0x1FF umask
    | NFile _ => N.ldiff 0x1B6 umask
    | _ => 0x1FF
    end.
  Definition settle (d : disk) (g : fs) : disk :=
    mkDisk g (map_imap (fun q n => Some (match nodes d !! q with Some _ => mode_of d q | None => new_mode n end)) g).
  Fixpoint settle_all (d : disk) (l : list fs) : list disk :=
    match l with [] => [] | g :: l => settle d g :: settle_all (settle d g) l end.
  Definition lift {A} (p : prog fs A) : prog disk A := fun d => (settle_all d (fst (p (nodes d))), snd (p (nodes d))).
  (** os.chmod *)
  Definition os_chmod (p : string) (m : N) : prog disk unit :=
    d <~ ask (fun d => d) ;;
    match locate cwd true (nodes d) p with
    | Some q => match node_at (nodes d) q with
                | Some _ => change (fun d => mkDisk (nodes d) (<[ q := m ]> (modes d)))
                | None => raise EOS
                end
    | None => raise EOS
    end.
  (** open(p, "wb") makes an empty file or empties the one there; writing to a device leaves no
      trace here *)
  Definition write_file (p c : string) : prog fs unit :=
    f <~ ask (fun f => f) ;;
    match os_stat cwd f p with
    | Some NOther => ret tt
    | _ => _ <~ os_write cwd p "" ;; os_write cwd p c
    end.
  (** util/fs.py 38-43: white space around the name is taken off *)
  Definition check_dir (p : string) : prog fs unit :=
    f <~ ask (fun f => f) ;;
    let p := py_rstrip "/" (py_strip p) in
    if e_exists cwd f p then ret tt else os_makedirs cwd (S (String.length p)) p.

  (** ** Zip files *)
  (** archive.py 183-205, with zipfile's write and writestr; [n] bounds the depth.  The directory
      entry is written with its name as it is, the name of a file is normalised. *)
  Fixpoint add_to_archive (n : nat) (d : disk) (file arc : string) : res (list member) :=
    match n with
    | O => Err EFuel
    | S n =>
        let f := nodes d in
        if e_isdir cwd f file && negb (e_islink cwd f file) then
          match locate cwd true f file with
          | None => Err EOS
          | Some q =>
              ms <- mapM (fun x => add_to_archive n d (os_join file x) "") (order q (map basename (children f q))) ;;
              Ok (mkMember (file ++ "/") (N.shiftl (N.land (mode_of d q) 0xFFF) 16) "" :: concat ms)
          end
        else
          match os_lstat cwd f file with
          | Some (NLink t) => Ok [mkMember file symmagic t]
          | _ =>
              match locate cwd true f file with
              | None => Err EOS
              | Some q =>
                  match node_at f q with
                  | Some (NFile c) =>
                      name <- zip_name (if String.eqb arc "" then file else arc) ;;
                      Ok [mkMember name (N.shiftl (N.lor 0x8000 (N.land (mode_of d q) 0xFFF)) 16) c]
                  | _ => Err EOS
                  end
              end
          end
    end.
  (** zipfile's read: of several members with the same name, the last *)
  Definition zip_read (ms : list member) (name : string) : string :=
    match List.find (fun m => String.eqb (m_name m) name) (rev ms) with Some m => m_data m | None => "" end.

  (** archive.py 231-285, one member: None stands for [continue] without doing anything *)
  Definition out_path (archive_root name : string) : option string :=
    if String.eqb archive_root "" then Some name
    else if subpath archive_root name then match removepathprefix archive_root name with Ok p => Some p | Err _ => None end
    else None.
  Definition zip_mode (m : member) : N := N.lor (N.shiftr (N.land (m_attr m) 0x08FF0000) 16) 0x100.
  Definition zip_dir_mode (m : member) : N := N.lor (N.shiftr (N.land (m_attr m) 0xFFFF0000) 16) 0x100.
  Definition unpack_member (ms : list member) (target archive_root : string) (m : member) : prog disk unit :=
    match out_path archive_root (m_name m) with
    | None => ret tt
    | Some out =>
        let ofile := os_join target out in
        if py_endswith (m_name m) "/" then
          d <~ ask (fun d => d) ;;
          if e_isdir cwd (nodes d) ofile then ret tt
          else _ <~ lift (os_makedirs cwd (S (String.length ofile)) ofile) ;; os_chmod ofile (zip_dir_mode m)
        else
          _ <~ lift (check_dir (dirname ofile)) ;;
          d <~ ask (fun d => d) ;;
          _ <~ (if e_isfile cwd (nodes d) ofile || e_islink cwd (nodes d) ofile then lift (os_unlink cwd ofile) else ret tt) ;;
          if N.eqb (m_attr m) symmagic then
            d <~ ask (fun d => d) ;;
            _ <~ (if e_isdir cwd (nodes d) ofile then lift (shutil_rmtree cwd ofile) else ret tt) ;;
            lift (os_symlink cwd (zip_read ms (m_name m)) ofile)
          else
            _ <~ lift (write_file ofile (zip_read ms (m_name m))) ;; os_chmod ofile (zip_mode m)
    end.
  (** archive.py 227-285 *)
  Definition unpack_file_cond (pred : string -> bool) (ms : list member) (target archive_root : string) : prog disk unit :=
    each (fun m => if pred (m_name m) then unpack_member ms target archive_root m else ret tt) ms.
  (** 287-294 *)
  Definition unpack_files (paths : list string) (ms : list member) (target : string) : prog disk unit :=
    unpack_file_cond (fun f => existsb (String.eqb f) paths) ms target "".
  Definition unpack_dir (path : string) (ms : list member) (target : string) : prog disk unit :=
    unpack_file_cond (subpath path) ms target "".
  Definition unpack_dir_flat (path : string) (ms : list member) (target : string) : prog disk unit :=
    unpack_file_cond (subpath path) ms target path.
  (** 47-53; util/fs.py 45-49 *)
  Definition prepare (target : string) (clean : bool) : prog disk unit :=
    d <~ ask (fun d => d) ;;
    _ <~ (if e_exists cwd (nodes d) target && clean then lift (shutil_rmtree cwd target) else ret tt) ;;
    lift (os_makedirs cwd (S (String.length target)) target).
  (** 296-302 *)
  Definition unpack_zip (ms : list member) (target : string) (clean : bool) : prog disk unit :=
    _ <~ prepare target clean ;; unpack_file_cond (fun _ => true) ms target "".

  (** ** Tar files *)
  (** tarfile's add, with the name in the archive *)
  Fixpoint tar_add (n : nat) (d : disk) (file arc : string) : res (list tmember) :=
    match n with
    | O => Err EFuel
    | S n =>
        let f := nodes d in
        match locate cwd false f file with
        | None => Err EOS
        | Some q =>
            let name := py_lstrip "/" arc in
            match node_at f q with
            | Some (NFile c) => Ok [mkTar name (N.land (mode_of d q) 0xFFF) (AFile c)]
            | Some (NLink t) => Ok [mkTar name 0x1FF (ALink t)]
            | Some NDir =>
                ms <- mapM (fun x => tar_add n d (os_join file x) (os_join arc x)) (order q (map basename (children f q))) ;;
                Ok (mkTar name (N.land (mode_of d q) 0xFFF) ADir :: concat ms)
            | _ => Err EOS
            end
        end
    end.
  (** archive.py 132-148 *)
  Definition tar_add_to_archive (n : nat) (d : disk) (file arc : string) : res (list tmember) :=
    tar_add n d file (if String.eqb arc "" then file else arc).
  (** tarfile's extract; a chmod that fails is only a message.  (A directory is made with 0700
      and gets its mode then.) *)
  Definition tar_extract (m : tmember) : prog disk unit :=
    let path := py_rstrip "/" (t_name m) in
    d <~ ask (fun d => d) ;;
    _ <~ (if String.eqb (dirname path) "" || e_exists cwd (nodes d) (dirname path) then ret tt
          else lift (os_makedirs cwd (S (String.length (dirname path))) (dirname path))) ;;
    match t_what m with
    | AFile c => _ <~ lift (write_file path c) ;; try_except (os_chmod path (t_mode m)) is_os_error (ret tt)
    | ADir =>
        d <~ ask (fun d => d) ;;
        _ <~ (if e_lexists cwd (nodes d) path then ret tt else lift (os_mkdir cwd path)) ;;
        try_except (os_chmod path (t_mode m)) is_os_error (ret tt)
    | ALink t =>
        d <~ ask (fun d => d) ;;
        _ <~ (if e_lexists cwd (nodes d) path then lift (os_unlink cwd path) else ret tt) ;;
        lift (os_symlink cwd t path)
    end.
  (** archive.py 107-127, one member; [installing]: the archive is install.tar of a package *)
  Definition tar_member (installing : bool) (m : tmember) : prog disk unit :=
    d <~ ask (fun d => d) ;;
    _ <~ (if installing && (e_isfile cwd (nodes d) (t_name m) || e_islink cwd (nodes d) (t_name m))
          then try_except (lift (os_unlink cwd (t_name m))) is_os_error (ret tt) else ret tt) ;;
    tar_extract m.
End archive.

(** archive.py 102-130, in the directory [os.chdir] leads to; after an error the process stays
    there *)
Definition tar_unpack_dir (cwd : string) (umask : N) (installing : bool) (ms : list tmember) (target : string) : prog disk unit :=
  d <~ ask (fun d => d) ;;
  match locate cwd true (nodes d) target with
  | Some q => match node_at (nodes d) q with
              | Some NDir => each (tar_member q umask installing) ms
              | _ => raise EOS
              end
  | None => raise EOS
  end.
(** archive.py 81-84 *)
Definition unpack_tar (cwd : string) (umask : N) (ms : list tmember) (target : string) (clean : bool) : prog disk unit :=
  _ <~ prepare cwd umask target clean ;; tar_unpack_dir cwd umask false ms target.
(** archive.py 62-69: shutil.copyfile *)
Definition unpack_binary (cwd : string) (umask : N) (file target : string) (clean : bool) : prog disk unit :=
  _ <~ prepare cwd umask target clean ;;
  d <~ ask (fun d => d) ;;
  match os_stat cwd (nodes d) file with
  | Some (NFile c) => lift umask (write_file cwd (os_join target (basename file)) c)
  | _ => raise EOS
  end.
