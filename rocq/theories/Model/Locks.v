(** * Locks between instances: db/lockeddbshelve.py 70-75, 79-102, 107-172, with the order in which
    api.py 86-97, 106-131 and op/rebuilddb.py 148-165 call it *)
From Coq Require Import String List Bool Arith.
From stdpp Require Import gmap strings.
Import ListNotations.
Open Scope string_scope.
Open Scope list_scope.

(** What an instance does to the directory of databases.  Simplification: the name of a file in
    this directory is its path; reading takes no lock and is left out. *)
Inductive act :=
| Stamp (f : string)    (* lockeddbshelve.py 62-64: writing a version file *)
| Open (f : string)     (* lockeddbshelve.py 71, 151: file(f, 'w') *)
| Flock (f : string)    (* lockeddbshelve.py 73, 153: flock(LOCK_EX | LOCK_NB) on the file opened as f *)
| Modify (db : string)  (* creating, changing or removing a database *)
| Close (f : string)    (* lockeddbshelve.py 166, api.py 130: close of the file opened as f *)
| Unlink (f : string).  (* lockeddbshelve.py 167 *)

(** lockeddbshelve.py 71, 115, 151 *)
Definition env : string := "dbenv.lock".
Definition lock_of (db : string) : string := (db ++ ".bdb" ++ ".lock")%string.

(** From init_dbenv(write=True) to finalize: api.py 88-97, 113-130.  [stamps] are the version files
    found missing, or to be updated; [opened] the databases as opened, [closed] as closed.
    Opening one for writing creates it (lockeddbshelve.py 117-118, 140-141). *)
Record session := mkSession { ss_stamps : list string; ss_opened : list string; ss_changes : list string; ss_closed : list string }.
Definition session_acts (x : session) : list act :=
  map Stamp (ss_stamps x) ++ [Open env; Flock env] ++
  flat_map (fun d => [Open (lock_of d); Flock (lock_of d); Modify d]) (ss_opened x) ++ map Modify (ss_changes x) ++
  flat_map (fun d => [Close (lock_of d); Unlink (lock_of d)]) (ss_closed x) ++ [Close env].
(** A command: any number of sessions *)
Definition command (l : list session) : list act := flat_map session_acts l.
(** op/rebuilddb.py 148-165: the version files are written, the databases [old] removed; finalize;
    init again *)
Definition rebuild (old : list string) (x : session) : list session :=
  [mkSession ["dbversion"; "filesdbversion"] [] old []; x].

(** The system: names of files to files, open files to files, files to the open file that has
    locked them.  Files and open files are numbers. *)
Record proc := mkProc {
  p_fds : gmap string nat;  (* opened here, by name *)
  p_kept : list nat;        (* inherited from the process that started this one *)
  p_done : list act;
  p_todo : list act
}.
Record system := mkSystem { s_dir : gmap string nat; s_open : gmap nat nat; s_locks : gmap nat nat; s_procs : gmap nat proc; s_next : nat }.
Definition start : system := mkSystem ∅ ∅ ∅ ∅ 0.
Definition set_proc (s : system) (p : nat) (P : proc) : system := mkSystem (s_dir s) (s_open s) (s_locks s) (<[p := P]> (s_procs s)) (s_next s).

(** flock(2): a lock belongs to the open file, and goes when the last process closes it *)
Definition has_open (P : proc) (o : nat) : bool := existsb (fun x => Nat.eqb (snd x) o) (map_to_list (p_fds P)) || existsb (Nat.eqb o) (p_kept P).
Definition alive (s : system) (o : nat) : bool := existsb (fun x => has_open (snd x) o) (map_to_list (s_procs s)).
Definition busy (s : system) (i o : nat) : bool := match s_locks s !! i with Some o' => negb (Nat.eqb o' o) && alive s o' | None => false end.

(** One action of process [p]; None is an exception: the lock is refused (lockeddbshelve.py 74-75,
    154-155), or there is no such file *)
Definition act_step (s : system) (p : nat) (P : proc) (a : act) (rest : list act) : option system :=
  let P1 fds := mkProc fds (p_kept P) (p_done P ++ [a]) rest in
  match a with
  | Stamp _ | Modify _ => Some (set_proc s p (P1 (p_fds P)))
  | Open f =>
      match s_dir s !! f with
      | Some i => Some (set_proc (mkSystem (s_dir s) (<[s_next s := i]> (s_open s)) (s_locks s) (s_procs s) (S (s_next s))) p (P1 (<[f := s_next s]> (p_fds P))))
      | None =>
          let i := s_next s in let o := S i in
          Some (set_proc (mkSystem (<[f := i]> (s_dir s)) (<[o := i]> (s_open s)) (s_locks s) (s_procs s) (S o)) p (P1 (<[f := o]> (p_fds P))))
      end
  | Flock f =>
      match p_fds P !! f with
      | Some o =>
          match s_open s !! o with
          | Some i => if busy s i o then None else Some (set_proc (mkSystem (s_dir s) (s_open s) (<[i := o]> (s_locks s)) (s_procs s) (s_next s)) p (P1 (p_fds P)))
          | None => None
          end
      | None => None
      end
  | Close f => match p_fds P !! f with Some _ => Some (set_proc s p (P1 (delete f (p_fds P)))) | None => None end
  | Unlink f => match s_dir s !! f with Some _ => Some (set_proc (mkSystem (delete f (s_dir s)) (s_open s) (s_locks s) (s_procs s) (s_next s)) p (P1 (p_fds P))) | None => None end
  end.

(** What can happen: an instance starts; a process starts another one (util/process.py 29-30, 66;
    os.system), which inherits its open files and may close some; a process goes on; one ends, on
    its own or not *)
Inductive event :=
| Starts (p : nat) (l : list session)
| Spawns (p q : nat) (l : list session)
| Drops (p : nat) (kept : list nat)
| Goes (p : nat)
| Ends (p : nat).
Definition happens (s : system) (e : event) : option system :=
  match e with
  | Starts p l => match s_procs s !! p with Some _ => None | None => Some (set_proc s p (mkProc ∅ [] [] (command l))) end
  | Spawns p q l =>
      match s_procs s !! p, s_procs s !! q with
      | Some P, None => Some (set_proc s q (mkProc ∅ (map snd (map_to_list (p_fds P)) ++ p_kept P) [] (command l)))
      | _, _ => None
      end
  | Drops p kept =>
      match s_procs s !! p with
      | Some P => Some (set_proc s p (mkProc (p_fds P) (filter (fun o => o ∉ kept) (p_kept P)) (p_done P) (p_todo P)))
      | None => None
      end
  | Goes p =>
      match s_procs s !! p with
      | Some P => match p_todo P with a :: rest => act_step s p P a rest | [] => None end
      | None => None
      end
  | Ends p => match s_procs s !! p with Some _ => Some (mkSystem (s_dir s) (s_open s) (s_locks s) (delete p (s_procs s)) (s_next s)) | None => None end
  end.
Fixpoint happen (s : system) (l : list event) : option system :=
  match l with
  | [] => Some s
  | e :: l => match happens s e with Some s' => happen s' l | None => None end
  end.
