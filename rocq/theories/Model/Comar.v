(** * Talking to COMAR

    pisi/comariface.py.  COMAR is on the other end of a link: what it sends after each request,
    and whether it then hangs up, depend on all requests so far and are parameters, as are
    whether a link can be made (28-38) and whether COMAR can be reached again within the five
    seconds of wait_comar (40-54).  What errors say is left out. *)
From Coq Require Import String List Bool.
From Verif Require Import Model.Py Model.Path Model.Index.
Import ListNotations.
Open Scope string_scope.

(** The commands of COMAR wait_for_result knows (comariface.py 71-89), and others *)
Inductive reply := RResult | RNone | RStart | REnd | RFail | RError | RDenied | ROther.
Inductive request :=
| Register (om package script : string)              (* com.register *)
| Call (method : string) (args : list string)        (* com.call *)
| CallPackage (method package : string)              (* com.call_package *)
| Unregister (package : string).                     (* com.remove *)
(** A ComarProvide (data/specfile.py 120-123) *)
Record provide := mkProvide { om : string; script : string }.

(** How a call ends: it may wait for a reply that never comes *)
Inductive outcome := Done | Raised (e : exn) | Waits.
Record link := mkLink { sent : list request; unread : list reply; closed : bool }.

Section comar.
  Context (answer : list request -> list reply)      (* what is sent after these requests, oldest first *)
          (hangs_up : list request -> bool)          (* and whether the link is closed after that *)
          (connects : bool) (comes_back : bool).

  (** comariface.py 28-38 *)
  Definition make_com : res link := if connects then Ok (mkLink [] [] false) else Err EError.

  (** A request on a link that is closed is an error of the socket *)
  Definition send (r : request) (l : link) : link * outcome :=
    if closed l then (l, Raised EOS)
    else let h := (sent l ++ [r])%list in (mkLink h (unread l ++ answer h)%list (hangs_up h), Done).

  (** comariface.py 56-89 *)
  Fixpoint wait (package : option string) (shut multiple : bool) (replies : list reply) : list reply * outcome :=
    match replies with
    | [] =>
        if shut then
          if match package with Some n => String.eqb n "comar" | None => false end
          then if comes_back then ([], Done) else ([], Raised EError)
          else ([], Raised EError)
        else ([], Waits)
    | cmd :: rest =>
        match cmd with
        | RResult | RNone => if multiple then wait package shut multiple rest else (rest, Done)
        | RStart => wait package shut true rest
        | REnd => (rest, Done)
        | RFail | RError | RDenied => (rest, Raised EError)
        | ROther => wait package shut multiple rest
        end
    end.
  Definition wait_for_result (package : option string) (l : link) : link * outcome :=
    let '(rest, o) := wait package (closed l) false (unread l) in (mkLink (sent l) rest (closed l), o).

  Definition request_and_wait (r : request) (package : option string) (l : link) : link * outcome :=
    match send r l with
    | (l, Done) => wait_for_result package l
    | x => x
    end.

  (** comariface.py 96-101: the loop, with self_post *)
  Fixpoint register_all (package scriptpath : string) (scripts : list provide) (self_post : bool) (l : link) : link * outcome * bool :=
    match scripts with
    | [] => (l, Done, self_post)
    | s :: scripts =>
        let self_post := if String.eqb (om s) "System.Package" then true else self_post in
        match request_and_wait (Register (om s) package (os_join scriptpath (script s))) None l with
        | (l, Done) => register_all package scriptpath scripts self_post l
        | (l, o) => (l, o, self_post)
        end
    end.
  (** comariface.py 91-110; the link as it is in the end, None if there was none *)
  Definition post_install (package : string) (scripts : list provide) (scriptpath metapath filepath : string) : option link * outcome :=
    match make_com with
    | Err e => (None, Raised e)
    | Ok l =>
        match register_all package scriptpath scripts false l with
        | (l, Done, self_post) =>
            match request_and_wait (Call "System.PackageHandler.setupPackage" ["metapath"; metapath; "filepath"; filepath]) None l with
            | (l, Done) =>
                if self_post then
                  let '(l, o) := request_and_wait (CallPackage "System.Package.postInstall" package) (Some package) l in (Some l, o)
                else (Some l, Done)
            | (l, o) => (Some l, o)
            end
        | (l, o, _) => (Some l, o)
        end
    end.
  (** comariface.py 112-126 *)
  Definition pre_remove (package metapath filepath : string) : option link * outcome :=
    match make_com with
    | Err e => (None, Raised e)
    | Ok l =>
        match request_and_wait (CallPackage "System.Package.preRemove" package) None l with
        | (l, Done) =>
            match request_and_wait (Call "System.PackageHandler.cleanupPackage" ["metapath"; metapath; "filepath"; filepath]) None l with
            | (l, Done) => let '(l, o) := request_and_wait (Unregister package) None l in (Some l, o)
            | (l, o) => (Some l, o)
            end
        | (l, o) => (Some l, o)
        end
    end.
End comar.
