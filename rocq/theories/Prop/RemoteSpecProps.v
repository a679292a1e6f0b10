(** * C98: building from a specification on a server *)
From Coq Require Import String Ascii List.
From stdpp Require Import gmap strings.
From Verif Require Import Model.Py Model.Search Spec.PathSpec Spec.UriSpec Model.Trace Model.Fetch Model.RemoteSpec Spec.RemoteSpecSpec Proof.RemoteSpecFacts.
Import ListNotations.
Open Scope string_scope.

(** C98.  The builder of a specification on a server copies every file the build looks for to the
    place below its own directory where it looks, with what the server has, and changes nothing
    else; it fails just if one of them is missing on the server or empty there.  Missing: names
    with '?', '#' or ';', and scripts for COMAR in directories of their own, for which it is not
    so. *)
Theorem C98_fetched_partial (server : string -> option string) (local : string -> bool) (tmp_dir specuri dir name : string) (s : spec_files) (f : files) :
  spec_address specuri dir name -> tmp_dir <> "" -> ~ ends_in_slash tmp_dir -> plain_names s ->
  let here := tmp_dir ++ "/" ++ name in
  let p := specdir server local tmp_dir specuri s in
  ((forall n, needed s n -> exists c, has server (dir ++ "/" ++ n) c) /\ result p f = Ok here /\
    (forall n, needed s n -> final p f !! (here ++ "/" ++ n) = server (dir ++ "/" ++ n)) /\
    (forall g, (forall n, needed s n -> g <> here ++ "/" ++ n) -> final p f !! g = f !! g)) \/
  ((exists n, needed s n /\ forall c, ~ has server (dir ++ "/" ++ n) c) /\ result p f = Err EFetch /\
    (forall g, (forall n, needed s n -> g <> here ++ "/" ++ n) -> final p f !! g = f !! g)).
Proof.
  intros A T1 T2 P here p. unfold p. rewrite (specdir_is server local tmp_dir specuri dir name A).
  exact (fetched server local tmp_dir specuri dir name A (conj T1 T2) s f P).
Qed.
Print Assumptions C98_fetched_partial.

(** ** A case *)
Definition zip : spec_files := mkSpecFiles ["fix.patch"; "more/two.patch"] [mkSpecPackage ["service.py"] ["zip.conf"]; mkSpecPackage [] ["etc/x"]].
Definition site (a : string) : option string :=
  if existsb (String.eqb a) ["http://h/r/zip/actions.py"; "http://h/r/zip/files/fix.patch"; "http://h/r/zip/files/more/two.patch"; "http://h/r/zip/comar/service.py";
     "http://h/r/zip/files/zip.conf"; "http://h/r/zip/files/etc/x"] then Some ("at " ++ a) else None.
Definition nowhere (_ : string) : bool := false.
Lemma address : spec_address "http://h/r/zip/pspec.xml" "http://h/r/zip" "zip".
Proof.
  exists "http", "h", "/r", "pspec.xml". split; [reflexivity|]. split; [reflexivity|]. split.
  { split; [discriminate|]. intros c I. left. cbn in I. intuition (subst; reflexivity). }
  split; [discriminate|]. split.
  { split; [intros c [<-|[<-|[<-|[]]]]; cbv; intuition discriminate|]. split; intros _; cbv; intuition discriminate. }
  split; [split; [right; now exists "r/zip"|]; intros c [<-|[<-|[<-|[]]]]; cbv; intuition discriminate|].
  split; [discriminate|]. split; [cbv; intuition discriminate|]. split; [discriminate|]. split; [cbv; intuition discriminate|].
  intros c [<-|[<-|[<-|[]]]]; cbv; intuition discriminate.
Qed.
Lemma plain_one n : n <> "" -> free_of "/" n -> plain_chars n -> plain_file n.
Proof. intros N F P. split; [now apply rel_name|exact P]. Qed.
Lemma zip_plain : plain_names zip.
Proof.
  assert (forall a n, a <> "" -> free_of "/" a -> n <> "" -> free_of "/" n -> plain_chars (a ++ "/" ++ n) -> plain_file (a ++ "/" ++ n)) as Two.
  { intros a n A Fa N F P. split; [|exact P]. apply rel_under; [assumption|assumption|now apply rel_name]. }
  split; [|split].
  - intros p [<-|[<-|[]]].
    + apply plain_one; [discriminate|cbv; intuition discriminate|intros c [<-|[<-|[<-|[]]]]; cbv; intuition discriminate].
    + apply (Two "more" "two.patch"); [discriminate|cbv; intuition discriminate|discriminate|cbv; intuition discriminate|intros c [<-|[<-|[<-|[]]]]; cbv; intuition discriminate].
  - intros k n [<-|[<-|[]]] [<-|[]].
    + apply plain_one; [discriminate|cbv; intuition discriminate|intros c [<-|[<-|[<-|[]]]]; cbv; intuition discriminate].
    + apply (Two "etc" "x"); [discriminate|cbv; intuition discriminate|discriminate|cbv; intuition discriminate|intros c [<-|[<-|[<-|[]]]]; cbv; intuition discriminate].
  - intros k n [<-|[<-|[]]] I; [|destruct I]. destruct I as [<-|[]]. split; [|cbv; intuition discriminate].
    apply plain_one; [discriminate|cbv; intuition discriminate|intros c [<-|[<-|[<-|[]]]]; cbv; intuition discriminate].
Qed.
Example C98_nontrivial : spec_address "http://h/r/zip/pspec.xml" "http://h/r/zip" "zip" /\ plain_names zip /\
  result (specdir site nowhere "/tmp" "http://h/r/zip/pspec.xml" zip) ∅ = Ok "/tmp/zip" /\
  final (specdir site nowhere "/tmp" "http://h/r/zip/pspec.xml" zip) ∅ !! "/tmp/zip/files/more/two.patch" = Some "at http://h/r/zip/files/more/two.patch" /\
  result (specdir site nowhere "/tmp" "http://h/r/zip/pspec.xml" (mkSpecFiles ["none.patch"] [])) ∅ = Err EFetch.
Proof. split; [apply address|]. split; [apply zip_plain|]. repeat split; vm_compute; reflexivity. Qed.

(** ** Where it is not so *)
(** A script for COMAR in a directory: fetching succeeds, and it is not where the build looks. *)
Definition dir_script : spec_files := mkSpecFiles [] [mkSpecPackage ["sub/service.py"] []].
Definition everything (a : string) : option string := Some a.
Theorem C98_script_refuted :
  ~ (forall server local tmp_dir specuri dir name s f,
       spec_address specuri dir name -> tmp_dir <> "" -> ~ ends_in_slash tmp_dir ->
       (forall p, In p (sf_patches s) -> plain_file p) ->
       (forall k n, In k (sf_packages s) -> In n (sp_additional k) \/ In n (sp_scripts k) -> plain_file n) ->
       result (specdir server local tmp_dir specuri s) f = Ok (tmp_dir ++ "/" ++ name) ->
       forall n, needed s n -> final (specdir server local tmp_dir specuri s) f !! (tmp_dir ++ "/" ++ name ++ "/" ++ n) = server (dir ++ "/" ++ n)).
Proof.
  intros H. specialize (H everything nowhere "/tmp" "http://h/r/zip/pspec.xml" "http://h/r/zip" "zip" dir_script ∅ address).
  assert (final (specdir everything nowhere "/tmp" "http://h/r/zip/pspec.xml" dir_script) ∅ !! ("/tmp" ++ "/" ++ "zip" ++ "/" ++ "comar/sub/service.py") = None) as E by (vm_compute; reflexivity).
  enough (None = Some "http://h/r/zip/comar/sub/service.py") by discriminate. rewrite <- E. apply H.
  - discriminate.
  - intros [t K]. do 4 (destruct t as [|? t]; [discriminate K|injection K as ? K; subst]); destruct t; discriminate K.
  - intros p [].
  - intros k n [<-|[]] [[]|[<-|[]]]. split; [|intros c [<-|[<-|[<-|[]]]]; cbv; intuition discriminate].
    apply (rel_under "sub" "service.py"); [discriminate|cbv; intuition discriminate|]. apply rel_name; [discriminate|cbv; intuition discriminate].
  - vm_compute. reflexivity.
  - apply (needed_script dir_script (mkSpecPackage ["sub/service.py"] []) "sub/service.py"); now left.
Qed.
Print Assumptions C98_script_refuted.

(** A name with '#': the server has everything, and what is fetched is put elsewhere. *)
Definition sharp : spec_files := mkSpecFiles ["fix#2.patch"] [].
Theorem C98_sharp_refuted :
  ~ (forall server local tmp_dir specuri dir name s f,
       spec_address specuri dir name -> tmp_dir <> "" -> ~ ends_in_slash tmp_dir ->
       (forall p, In p (sf_patches s) -> relative_path p) -> sf_packages s = [] ->
       result (specdir server local tmp_dir specuri s) f = Ok (tmp_dir ++ "/" ++ name) ->
       forall n, needed s n -> final (specdir server local tmp_dir specuri s) f !! (tmp_dir ++ "/" ++ name ++ "/" ++ n) = server (dir ++ "/" ++ n)).
Proof.
  intros H. specialize (H everything nowhere "/tmp" "http://h/r/zip/pspec.xml" "http://h/r/zip" "zip" sharp ∅ address).
  assert (final (specdir everything nowhere "/tmp" "http://h/r/zip/pspec.xml" sharp) ∅ !! ("/tmp" ++ "/" ++ "zip" ++ "/" ++ "files/fix#2.patch") = None) as E by (vm_compute; reflexivity).
  enough (None = Some "http://h/r/zip/files/fix#2.patch") by discriminate. rewrite <- E. apply H.
  - discriminate.
  - intros [t K]. do 4 (destruct t as [|? t]; [discriminate K|injection K as ? K; subst]); destruct t; discriminate K.
  - intros p [<-|[]]. apply rel_name; [discriminate|cbv; intuition discriminate].
  - reflexivity.
  - vm_compute. reflexivity.
  - apply (needed_patch sharp "fix#2.patch"). now left.
Qed.
Print Assumptions C98_sharp_refuted.

(** An empty file: the server has everything, and fetching fails. *)
Theorem C98_empty_refuted :
  ~ (forall server local tmp_dir specuri dir name s f,
       spec_address specuri dir name -> tmp_dir <> "" -> ~ ends_in_slash tmp_dir -> plain_names s ->
       (forall n, needed s n -> exists c, server (dir ++ "/" ++ n) = Some c) ->
       result (specdir server local tmp_dir specuri s) f = Ok (tmp_dir ++ "/" ++ name)).
Proof.
  intros H.
  assert (result (specdir (fun _ => Some "") nowhere "/tmp" "http://h/r/zip/pspec.xml" zip) ∅ = Err EFetch) as E by (vm_compute; reflexivity).
  specialize (H (fun _ => Some "") nowhere "/tmp" "http://h/r/zip/pspec.xml" "http://h/r/zip" "zip" zip ∅ address). rewrite E in H.
  enough (Err EFetch = Ok ("/tmp" ++ "/" ++ "zip")) by discriminate. apply H.
  - discriminate.
  - intros [t K]. do 4 (destruct t as [|? t]; [discriminate K|injection K as ? K; subst]); destruct t; discriminate K.
  - apply zip_plain.
  - intros n _. now exists "".
Qed.
Print Assumptions C98_empty_refuted.
