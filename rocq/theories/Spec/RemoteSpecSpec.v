(** * What a build needs of the files beside a specification *)
From Coq Require Import String Ascii List.
From stdpp Require Import gmap strings.
From Verif Require Import Model.Py Model.Search Spec.PathSpec Spec.UriSpec Model.RemoteSpec.
Import ListNotations.
Open Scope string_scope.

(** The files a build looks for, by their place below the directory of the specification:
    compile_action_script (build.py 375), apply_patches (486), build_packages (746-750, 801-804) *)
Inductive needed (s : spec_files) : string -> Prop :=
| needed_actions : needed s "actions.py"
| needed_patch p : In p (sf_patches s) -> needed s ("files/" ++ p)
| needed_script k n : In k (sf_packages s) -> In n (sp_scripts k) -> needed s ("comar/" ++ n)
| needed_additional k n : In k (sf_packages s) -> In n (sp_additional k) -> needed s ("files/" ++ n).

(** Names without what means something else in addresses *)
Definition plain_chars (n : string) : Prop := forall c, In c ["?"; "#"; ";"]%char -> free_of c n.
Definition plain_file (n : string) : Prop := relative_path n /\ plain_chars n.
Definition plain_names (s : spec_files) : Prop :=
  (forall p, In p (sf_patches s) -> plain_file p) /\
  (forall k n, In k (sf_packages s) -> In n (sp_additional k) -> plain_file n) /\
  (forall k n, In k (sf_packages s) -> In n (sp_scripts k) -> plain_file n /\ free_of "/" n).

(** http://server/path/zip/pspec.xml: the address of its directory, and the name of that *)
Definition spec_address (specuri dir name : string) : Prop :=
  exists s h q file, dir = s ++ "://" ++ h ++ q ++ "/" ++ name /\ specuri = dir ++ "/" ++ file /\
    scheme_text s /\ py_lower s <> "file" /\ host_text h /\ path_text (q ++ "/" ++ name) /\
    name <> "" /\ free_of "/" name /\ file <> "" /\ free_of "/" file /\ plain_chars file.

(** A server has a file, and there is something in it *)
Definition has (server : string -> option string) (address c : string) : Prop := server address = Some c /\ c <> "".
