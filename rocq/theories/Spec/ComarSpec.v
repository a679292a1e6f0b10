(** * What configuring a package with COMAR means *)
From Coq Require Import String List.
From Verif Require Import Model.Py Spec.PathSpec Model.Comar.
Import ListNotations.
Open Scope string_scope.

(** What is asked of COMAR, in order, to configure a package that was installed: that its scripts
    be registered, that the handlers be told of it, and, if one of its scripts is for
    System.Package, that what it says for after installing be run *)
Definition has_own (scripts : list provide) : Prop := exists s, In s scripts /\ om s = "System.Package".
Definition setup_requests (package : string) (scripts : list provide) (scriptpath metapath filepath : string) : list request :=
  (map (fun s => Register (om s) package (scriptpath ++ "/" ++ script s)) scripts ++
   [Call "System.PackageHandler.setupPackage" ["metapath"; metapath; "filepath"; filepath]])%list.
Definition asked_to_configure (package : string) (scripts : list provide) (scriptpath metapath filepath : string) (rs : list request) : Prop :=
  (has_own scripts -> rs = (setup_requests package scripts scriptpath metapath filepath ++ [CallPackage "System.Package.postInstall" package])%list) /\
  (~ has_own scripts -> rs = setup_requests package scripts scriptpath metapath filepath).
(** and before it is removed *)
Definition asked_to_remove (package metapath filepath : string) : list request :=
  [CallPackage "System.Package.preRemove" package;
   Call "System.PackageHandler.cleanupPackage" ["metapath"; metapath; "filepath"; filepath];
   Unregister package].

(** Names of scripts, in a directory *)
Definition script_names (scriptpath : string) (scripts : list provide) : Prop :=
  scriptpath <> "" /\ ~ ends_in_slash scriptpath /\ forall s, In s scripts -> forall r, script s <> "/" ++ r.

(** ** Verdicts *)
Definition notice (r : reply) : Prop := r = ROther.
Definition good (r : reply) : Prop := r = RResult \/ r = RNone.
Definition bad (r : reply) : Prop := r = RFail \/ r = RError \/ r = RDenied.
Definition member (r : reply) : Prop := notice r \/ good r \/ bad r.
Inductive verdict := Succeeded | Failed | Cut.

(** An answer is one reply, or those of several scripts between a start and an end; there may be
    notices anywhere before the end.  It is a success if no script failed.  The link may be cut
    instead before the answer is complete. *)
Inductive says : list reply -> bool -> verdict -> Prop :=
| single_good notices r : Forall notice notices -> good r -> says (notices ++ [r]) false Succeeded
| single_bad notices r more shut : Forall notice notices -> bad r -> says (notices ++ r :: more) shut Failed
| group_good notices members : Forall notice notices -> Forall member members -> (forall r, In r members -> ~ bad r) ->
    says (notices ++ RStart :: members ++ [REnd]) false Succeeded
| group_bad notices members more shut : Forall notice notices -> Forall member members -> (exists r, In r members /\ bad r) ->
    says (notices ++ RStart :: members ++ more) shut Failed
| cut_single notices : Forall notice notices -> says notices true Cut
| cut_group notices members : Forall notice notices -> Forall member members -> (forall r, In r members -> ~ bad r) ->
    says (notices ++ RStart :: members) true Cut.

Section server.
  Context (answer : list request -> list reply) (hangs_up : list request -> bool).
  (** What COMAR makes of the last one of these requests *)
  Definition decides (h : list request) (v : verdict) : Prop := says (answer h) (hangs_up h) v.
  (** It answers every request *)
  Definition answers : Prop := forall h, h <> [] -> exists v, decides h v.
  (** Requests that were all successful *)
  Definition all_good (rs : list request) : Prop :=
    forall before r after, rs = (before ++ r :: after)%list -> decides (before ++ [r]) Succeeded.
  (** Requests made up to the first that was not *)
  Definition stops (rs sent : list request) : Prop :=
    exists before r after, rs = (before ++ r :: after)%list /\ sent = (before ++ [r])%list /\ all_good before /\
      (decides (before ++ [r]) Failed \/ decides (before ++ [r]) Cut).
  (** Configuring comar starts COMAR anew, which may cut the link at the very end *)
  Definition restarted (package : string) (comes_back : bool) (scripts : list provide) (rs : list request) : Prop :=
    package = "comar" /\ comes_back = true /\ has_own scripts /\
    exists before r, rs = (before ++ [r])%list /\ all_good before /\ decides rs Cut.
End server.
