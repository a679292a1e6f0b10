(** * The commands add-repo, remove-repo and update-repo: cli/repo.py 52-68, 85-94, 116-126,
    op/repo.py 33-48 *)
From Coq Require Import String Ascii ZArith List Bool.
From stdpp Require Import gmap strings.
From Verif Require Import Model.Py Model.Path Model.Version Model.Package Model.ComponentDB Model.Databases Model.Rebuild Model.Index Model.Trace Model.Fetch Model.UpdateRepo.
Import ListNotations.
Open Scope string_scope.
Open Scope prog_scope.

(** Where a path leads: empty components and '.' stay, '..' goes up.  Simplification: no links. *)
Definition step_to (at_ : list string) (c : string) : list string :=
  if String.eqb c "" || String.eqb c "." then at_ else if String.eqb c ".." then removelast at_ else (at_ ++ [c])%list.
Definition leads (p : string) : list string := fold_left step_to (py_split "/" p) [].
Fixpoint starts (l m : list string) : bool :=
  match l, m with
  | [], _ => true
  | x :: l, y :: m => String.eqb x y && starts l m
  | _ :: _, [] => false
  end.

(** util/fs.py 45-49: clean_dir; shutil.rmtree of a file is an OSError.  Simplification: nothing
    else stands in the way. *)
Definition rmtree (dir : string) : prog files unit :=
  f <~ ask (fun f => f) ;;
  if existsb (fun pc : string * string => bool_decide (leads (fst pc) = leads dir)) (map_to_list f) then raise EOS
  else change (fun f : files => filter (fun pc => starts (leads dir) (leads (fst pc)) = false) f).

Section commands.
  Context (server : string -> option string) (net : string -> files -> transfer) (parse : string -> uri) (mirrors : string -> list string)
    (authinfo : bool) (dir_writable writable : string -> bool) (sha1 : string -> string) (bunzip2 : string -> option string) (fuel : nat).
  Context (index_dir : string) (read_index : string -> option pindex) (gpg_verify : files -> string -> bool).
  Notation update := (update_repo server net parse mirrors authinfo dir_writable writable sha1 bunzip2 fuel index_dir read_index gpg_verify).

  (** op/repo.py 41-48; db/repo.py 99-109: one transaction *)
  Definition remove_one (name : string) : prog machine unit :=
    s <~ ask (fun s => s) ;;
    if has_repo (db_repo (m_dbs s)) name then
      match remove_repo (m_dbs s) name with
      | Err e => raise e
      | Ok d =>
          _ <~ change (fun s => mkMachine (m_files s) d) ;;
          on_files (rmtree (os_join index_dir name))
      end
    else ret tt.
  (** cli/repo.py 85-94; without names, the help is shown *)
  Definition remove_command (names : list string) : prog machine unit := each remove_one names.

  (** cli/repo.py 116-126 *)
  Definition update_command (names : list string) (force : bool) : prog machine unit :=
    s <~ ask (fun s => s) ;;
    each (fun r => update r force) (match names with [] => order_of (m_dbs s) | _ => names end).

  (** op/repo.py 33-39 *)
  Definition add_one (name u : string) (at_ : option Z) : prog machine unit :=
    s <~ ask (fun s => s) ;;
    match op_add_repo (m_dbs s) name u at_ with
    | Err e => raise e
    | Ok d => change (fun s => mkMachine (m_files s) d)
    end.
  (** cli/repo.py 52-68; [yes] is the answer to the question *)
  Definition default_name : string := "pardus-1-test".
  Definition default_uri : string := "http://paketler.pardus.org.tr/pardus-1-test/pisi-index.xml.bz2".
  Definition add_command (args : list string) (at_ : option Z) (yes : bool) : prog machine unit :=
    let go name u := _ <~ add_one name u at_ ;; if yes then update name false else ret tt in
    match args with
    | [] => go default_name default_uri
    | [name; u] => go name u
    | _ => ret tt
    end.
End commands.
