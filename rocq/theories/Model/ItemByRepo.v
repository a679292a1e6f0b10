(** * pisi/db/itembyrepo.py

    A shelf is a finite map from names to pickled dictionaries; each dictionary maps a
    repository string ("inst", "trdparty", "repo-NAME") to an item.  Every function takes
    the current contents and returns the new ones; [txn_proc]'s rollback on exception is
    the absence of a new state in [Err].  Reads made without the transaction handle see
    the same contents (pisi opens Berkeley DB without the locking subsystem). *)
From stdpp Require Import gmap strings.
From Verif Require Import Model.Py.
Open Scope string_scope.

(** itembyrepo.py 27: the [repo] argument: one of the four constants or a name. *)
Inductive rarg := RInst | RThird | RRepos | RAll | RName (name : string).
#[global] Instance rarg_eq_dec : EqDecision rarg.
Proof. solve_decision. Defined.

Notation shelf A := (gmap string (gmap string A)).

(** itembyrepo.py 102-110 *)
Definition repo_str (r : rarg) : res string :=
  match r with
  | RThird => Ok "trdparty"
  | RInst => Ok "inst"
  | RName n => Ok ("repo-" +:+ n)
  | RRepos | RAll => Err EAssert
  end.

(** itembyrepo.py 112-120 *)
Definition str_repo (s : string) : res rarg :=
  if py_startswith s "repo-" then Ok (RName (py_drop 5 s))
  else if String.eqb s "trdparty" then Ok RThird
  else if String.eqb s "inst" then Ok RInst
  else Err EError.

Section db.
  Context {A : Type}.
  Implicit Types (d : shelf A) (data : gmap string A).

  Definition has (k : string) (data : gmap string A) : bool :=
    match data !! k with Some _ => true | None => false end.

  (** itembyrepo.py 59-68 *)
  Definition not_just_tracking data : bool :=
    if Nat.eqb (size data) 1 then
      negb (has "trdparty" data || has "inst" data)
    else if Nat.eqb (size data) 2 then
      negb (has "trdparty" data && has "inst" data)
    else true.

  (** itembyrepo.py 78-87: in the key order of the shelf, which nothing relies on. *)
  Definition list_items d (r : rarg) : res (list string) :=
    match r with
    | RAll => Ok (map_to_list d).*1
    | RRepos => Ok (List.filter (fun kv : string * gmap string A => not_just_tracking kv.2) (map_to_list d)).*1
    | _ => rs <- repo_str r ;;
           Ok (List.filter (fun kv : string * gmap string A => has rs kv.2) (map_to_list d)).*1
    end.

  (** itembyrepo.py 90-97; [order] is ctx.repodb.list(). *)
  Definition repo_order (order : list string) (r : rarg) : res (list string) :=
    match r with
    | RRepos => Ok (map (fun x => "repo-" +:+ x) order)
    | RAll => Ok (map (fun x => "repo-" +:+ x) order ++ ["trdparty"; "inst"])%list
    | _ => Err EAssert
    end.

  (** itembyrepo.py 122-134 *)
  Definition has_key d (name : string) (r : rarg) : res bool :=
    match r with
    | RAll => Ok (match d !! name with Some _ => true | None => false end)
    | RRepos => Ok (match d !! name with Some data => not_just_tracking data | None => false end)
    | _ => rs <- repo_str r ;;
           Ok (match d !! name with Some data => has rs data | None => false end)
    end.

  (** itembyrepo.py 145-147: the loop over [order]. *)
  Fixpoint first_of (ks : list string) data : option (string * A) :=
    match ks with
    | [] => None
    | k :: ks' => match data !! k with Some x => Some (k, x) | None => first_of ks' data end
    end.

  (** itembyrepo.py 136-155 *)
  Definition get_item_repo (order : list string) d (name : string) (r : rarg) : res (A * rarg) :=
    match d !! name with
    | None => Err EError
    | Some data =>
        match r with
        | RRepos | RAll =>
            ks <- repo_order order r ;;
            match first_of ks data with
            | Some (k, x) => r' <- str_repo k ;; Ok (x, r')
            | None => Err EError
            end
        | _ =>
            rs <- repo_str r ;;
            match data !! rs with Some x => Ok (x, r) | None => Err EError end
        end
    end.

  (** itembyrepo.py 157-166 *)
  Definition get_item order d name r : res A :=
    x <- get_item_repo order d name r ;; Ok x.1.

  (** itembyrepo.py 168-174 *)
  Definition which_repo order d name : res rarg :=
    x <- get_item_repo order d name RRepos ;; Ok x.2.

  Definition is_wildcard (r : rarg) : bool :=
    match r with RRepos | RAll => true | _ => false end.

  (** itembyrepo.py 176-186 *)
  Definition add_item d (name : string) (x : A) (r : rarg) : res (shelf A) :=
    if is_wildcard r then Err EAssert
    else rs <- repo_str r ;;
         let s := match d !! name with Some data => data | None => ∅ end in
         Ok (<[name := <[rs := x]> s]> d).

  (** itembyrepo.py 188-200.  For a missing name [self.d.get(name, txn)] returns the
      transaction object itself (it is passed as the default), which has no [has_key]. *)
  Definition remove_item_repo d (name : string) (r : rarg) : res (shelf A) :=
    if is_wildcard r then Err EAssert
    else match d !! name with
         | None => Err EAttribute
         | Some data =>
             rs <- repo_str r ;;
             let data' := match data !! rs with Some _ => delete rs data | None => data end in
             if Nat.eqb (size data') 0 then Ok (delete name d) else Ok (<[name := data']> d)
         end.

  (** itembyrepo.py 202-206 *)
  Definition remove_item_only order d name : res (shelf A) :=
    r <- which_repo order d name ;; remove_item_repo d name r.

  (** itembyrepo.py 208-214 *)
  Definition remove_item order d name (r : rarg) : res (shelf A) :=
    if is_wildcard r then remove_item_only order d name else remove_item_repo d name r.

  (** itembyrepo.py 216-220 *)
  Definition remove_repo_items d (r : rarg) : res (shelf A) :=
    foldM (fun d' key => remove_item_repo d' key r) (map_to_list d).*1 d.
End db.
