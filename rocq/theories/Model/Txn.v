(** * Database transactions: pisi/db/dbshelve.py txn_proc and pisi/context.py txn_proc

    Berkeley DB is modelled by what pisi relies on: one environment, a current contents
    that every read sees (pisi leaves the locking subsystem out, lockeddbshelve.py 91-95,
    so reads made without the handle see uncommitted writes too), and the write-ahead log
    of the active transaction, which keeps the previous value of everything written.
    Abort, and recovery after a crash (DB_RECOVER, lockeddbshelve.py 94), undo the log of
    a transaction that has not committed; a commit is durable.  Keys are pairs of a
    database name and a key. *)
From Coq Require Import String List.
From stdpp Require Import gmap strings.
From Verif Require Import Model.Py.
Open Scope string_scope.

Section txn.
  Context {V : Type}.
  Notation key := (string * string)%type.
  Notation store := (gmap key V).

  (** The body of a procedure handed to txn_proc, as a tree of database calls. *)
  Inductive proc : Type -> Type :=
  | PRet {A} (a : A) : proc A
  | PRaise {A} (e : exn) : proc A
  | PGet {A} (k : key) (f : option V -> proc A) : proc A       (* get, has_key *)
  | PKeys {A} (db : string) (f : list string -> proc A) : proc A
  | PPut {A} (k : key) (v : V) (p : proc A) : proc A
  | PDel {A} (k : key) (p : proc A) : proc A    (* DBNotFoundError when missing *)
  | PSub {A B} (q : proc B) (f : B -> proc A) : proc A (* txn_proc(q, txn), txn given: dbshelve.py 92-93 *)
  | PTry {A B} (q : proc B) (h : exn -> proc B) (f : B -> proc A) : proc A. (* try/except *)

  Definition keys_of (db : string) (s : store) : list string :=
    omap (fun kv : key * V => if String.eqb kv.1.1 db then Some kv.1.2 else None) (map_to_list s).

  (** ** The environment *)
  Record env := mkEnv {
    e_store : store;
    e_log : option (list (key * option V))     (* Some: a transaction is active; newest first *)
  }.

  Definition log_write (k : key) (e : env) : option (list (key * option V)) :=
    match e_log e with Some l => Some ((k, e_store e !! k) :: l) | None => None end.
  Definition e_put (k : key) (v : V) (e : env) : env := mkEnv (<[k := v]> (e_store e)) (log_write k e).
  Definition e_del (k : key) (e : env) : env := mkEnv (delete k (e_store e)) (log_write k e).

  (** DBEnv.txn_begin, DBTxn.commit, DBTxn.abort *)
  Definition e_begin (e : env) : env := mkEnv (e_store e) (Some []).
  Definition e_commit (e : env) : env := mkEnv (e_store e) None.
  Definition undo1 (s : store) (w : key * option V) : store :=
    match w.2 with Some v => <[w.1 := v]> s | None => delete w.1 s end.
  Definition e_abort (e : env) : env :=
    mkEnv (match e_log e with Some l => fold_left undo1 l (e_store e) | None => e_store e end) None.

  (** Opening the environment after the process died: DB_RECOVER *)
  Definition recover (e : env) : store := e_store (e_abort e).

  (** ** Running a procedure.  The list holds every environment the process passes
      through, in order (including the first one): the possible crash points. *)
  Fixpoint run {A} (p : proc A) (e : env) {struct p} : list env * env * res A :=
    match p with
    | PRet a => ([e], e, Ok a)
    | PRaise x => ([e], e, Err x)
    | PGet k f => let '(t, e', r) := run (f (e_store e !! k)) e in (e :: t, e', r)
    | PKeys db f => let '(t, e', r) := run (f (keys_of db (e_store e))) e in (e :: t, e', r)
    | PPut k v p => let '(t, e', r) := run p (e_put k v e) in (e :: t, e', r)
    | PDel k p =>
        match e_store e !! k with
        | None => ([e], e, Err EDB)
        | Some _ => let '(t, e', r) := run p (e_del k e) in (e :: t, e', r)
        end
    | PSub q f =>
        let '(t, e', r) := run q e in
        match r with
        | Ok b => let '(t', e'', r') := run (f b) e' in (t ++ t', e'', r')%list
        | Err x => (t, e', Err x)
        end
    | PTry q h f =>
        let '(t, e', r) := run q e in
        match r with
        | Ok b => let '(t', e'', r') := run (f b) e' in (t ++ t', e'', r')%list
        | Err x =>
            let '(t1, e1, r1) := run (h x) e' in
            match r1 with
            | Ok b => let '(t', e'', r') := run (f b) e1 in (t ++ t1 ++ t', e'', r')%list
            | Err y => (t ++ t1, e1, Err y)%list
            end
        end
    end.

  (** dbshelve.py 75-94 with [txn=None] and an open environment. *)
  Definition txn_proc {A} (p : proc A) (e : env) : list env * env * res A :=
    let '(t, e', r) := run p (e_begin e) in
    match r with
    | Ok a => (e :: t ++ [e_commit e'], e_commit e', Ok a)%list
    | Err x => (e :: t ++ [e_abort e'], e_abort e', Err x)%list
    end.

  (** dbshelve.py 89-90: no environment, "execute without transactions". *)
  Definition txn_proc_noenv {A} (p : proc A) (e : env) : list env * env * res A := run p e.

  (** context.py 63-81.  The name [db] in the except clauses is not defined in that module,
      so any exception turns into a NameError before [autotxn.abort()] is reached; the
      transaction stays open until its handle is collected. *)
  Definition ctx_txn_proc {A} (p : proc A) (e : env) : list env * env * res A :=
    let '(t, e', r) := run p (e_begin e) in
    match r with
    | Ok a => (e :: t ++ [e_commit e'], e_commit e', Ok a)%list
    | Err x => (e :: t, e', Err EName)%list
    end.
  (** The destructor of an unfinished DBTxn aborts it. *)
  Definition collect (e : env) : env := e_abort e.
End txn.
Arguments proc V A : clear implicits.
Arguments env V : clear implicits.

(** ** pisi/db/repo.py on the raw shelf *)
Inductive rval := RInfo (uri : string) | ROrder (l : list string).
Notation rkey n := ("repo", "repo-" +:+ n).
Definition okey : string * string := ("repo", "order").

(** db/repo.py 42-48: RepoDB.__init__ *)
Definition rp_init : proc rval unit :=
  PGet okey (fun o => match o with Some _ => PRet tt | None => PPut okey (ROrder []) (PRet tt) end).

(** db/repo.py 67-69 *)
Definition rp_has (n : string) : proc rval bool :=
  PGet (rkey n) (fun o => PRet (match o with Some _ => true | None => false end)).

(** db/repo.py 93-94: list *)
Definition rp_list : proc rval (list string) :=
  PGet okey (fun o => match o with Some (ROrder l) => PRet l | _ => PRaise EType end).

(** list.insert *)
Definition py_insert {A} (i : nat) (x : A) (l : list A) : list A := (take i l ++ x :: drop i l)%list.

(** db/repo.py 75-91: add_repo *)
Definition rp_add (n uri : string) (at_ : option Z) : proc rval unit :=
  PGet (rkey n) (fun o =>
    match o with
    | Some _ => PRaise EError
    | None =>
        PPut (rkey n) (RInfo uri)
          (PGet okey (fun o =>
             match o with
             | Some (ROrder order) =>
                 match at_ with
                 | None => PPut okey (ROrder (order ++ [n])%list) (PRet tt)
                 | Some z =>
                     if (z <? 0)%Z || (Z.of_nat (length order) <? z)%Z then PRaise EError
                     else PPut okey (ROrder (py_insert (Z.to_nat z) n order)) (PRet tt)
                 end
             | _ => PRaise EAttribute
             end))
    end).

(** db/repo.py 99-105: remove_repo, the part on the repository shelf *)
Fixpoint py_remove (x : string) (l : list string) : option (list string) :=
  match l with
  | [] => None
  | y :: l' => if String.eqb x y then Some l' else match py_remove x l' with Some r => Some (y :: r) | None => None end
  end.
Definition rp_remove (n : string) : proc rval unit :=
  PDel (rkey n)
    (PGet okey (fun o =>
       match o with
       | Some (ROrder order) =>
           match py_remove n order with
           | Some l => PPut okey (ROrder l) (PRet tt)
           | None => PRaise EValue
           end
       | _ => PRaise EAttribute
       end)).

(** db/repo.py 57-65: swap uses the undefined name [txn] *)
Definition rp_swap (x y : Z) : proc rval unit := PRaise EName.
