(** * C89: publishing a file *)
From Coq Require Import String Ascii ZArith List Bool.
From stdpp Require Import gmap strings.
From Verif Require Import Model.Py Model.Path Model.Rebuild Model.Trace Model.Fetch Model.Publish Spec.RebuildSpec Spec.FetchSpec Spec.PublishSpec Proof.TraceFacts Proof.PublishFacts.
Require Import Verif.Prop.FetchProps.
Import ListNotations.
Open Scope string_scope.

(** A published text, downloaded with its checksum and unpacked, is the text. *)
Theorem C89_round_trip (server : string -> option string) (net : string -> files -> transfer) (parse : string -> uri) (mirrors : string -> list string) (authinfo : bool)
    (dir_writable writable : string -> bool) (sha1 bzip2 : string -> string) (bunzip2 : string -> option string) (fuel : nat) (dir : string)
    (disk : files -> string -> list nat * bool) (gpg : files -> string -> option string) (u v : uri) (packed : bool) (text : string) (compress : option method) (sign : bool)
    (g0 f : files) (m : option method) (path : string) :
  (forall t, bunzip2 (bzip2 t) = Some t) -> (packed = true -> compress = Some Bz2) ->
  let site := publish bzip2 sha1 disk gpg u text true compress sign in
  result site g0 = Ok tt -> visits server parse (final site g0) u v packed dir f -> unpacks m packed (destination v dir) ->
  let get := download server net parse mirrors authinfo dir_writable writable sha1 bunzip2 fuel v dir true m false in
  result get f = Ok path -> final get f !! path = Some text.
Proof.
  intros Z Zp site R V. exact (round_trip server net parse mirrors authinfo dir_writable writable sha1 bunzip2 fuel dir bzip2 (final site g0) u v packed f V Z g0 disk gpg text compress sign m path Zp R eq_refl).
Qed.
Print Assumptions C89_round_trip.

(** It can be downloaded, or is there already, if the network works *)
Theorem C89_available (server : string -> option string) (net : string -> files -> transfer) (parse : string -> uri) (mirrors : string -> list string)
    (dir_writable writable : string -> bool) (sha1 bzip2 : string -> string) (bunzip2 : string -> option string) (fuel : nat) (dir : string)
    (disk : files -> string -> list nat * bool) (gpg : files -> string -> option string) (u v : uri) (packed : bool) (text : string) (compress : option method) (sign : bool)
    (g0 f : files) (m : option method) :
  dir_writable dir = true -> (forall p, writable p = true) -> (forall a f, t_complete (net a f) = true) ->
  (packed = true -> compress = Some Bz2) -> (forall t, bunzip2 (bzip2 t) = Some t) ->
  let site := publish bzip2 sha1 disk gpg u text true compress sign in
  result site g0 = Ok tt -> visits server parse (final site g0) u v packed dir f -> u_filename v <> "" ->
  stored bzip2 packed text <> "" -> (forall x, sha1 x <> "" /\ ~ In newline (list_ascii_of_string (sha1 x))) ->
  unpacks m packed (destination v dir) ->
  let get := download server net parse mirrors false dir_writable writable sha1 bunzip2 (S fuel) v dir true m false in
  (exists path, result get f = Ok path) \/ result get f = Err EAlreadyHave.
Proof.
  intros Wd Wf Net Zp Z site R V N Ne Sh U. exact (available server net parse mirrors dir_writable writable sha1 bunzip2 fuel dir Wd Wf Net bzip2 g0 disk gpg u v packed text compress sign m f Zp Z R V N Ne Sh U).
Qed.
Print Assumptions C89_available.

(** At any moment, while a text is published or after any number of publications each stopped
    anywhere, a download with checksum gives one of the texts published, or fails: never a part of
    one, nor parts of several. *)
Theorem C89_any_moment (server : string -> option string) (net : string -> files -> transfer) (parse : string -> uri) (mirrors : string -> list string) (authinfo : bool)
    (dir_writable writable : string -> bool) (sha1 bzip2 : string -> string) (bunzip2 : string -> option string) (fuel : nat) (dir : string)
    (u v : uri) (packed : bool) (g0 g f : files) (ts : list string) (m : option method) (path : string) :
  (forall t, bunzip2 (bzip2 t) = Some t) -> telling bzip2 sha1 packed ts ->
  g0 !! shelf u packed = None -> g0 !! (shelf u packed ++ ".sha1sum") = None -> publishings bzip2 sha1 u g0 ts g ->
  visits server parse g u v packed dir f -> unpacks m packed (destination v dir) ->
  let get := download server net parse mirrors authinfo dir_writable writable sha1 bunzip2 fuel v dir true m false in
  result get f = Ok path -> exists t, In t ts /\ final get f !! path = Some t.
Proof.
  intros Z T N1 N2 H V U. exact (any_moment server net parse mirrors authinfo dir_writable writable sha1 bunzip2 fuel dir bzip2 g u v packed f V Z g0 ts m path N1 N2 H T U).
Qed.
Print Assumptions C89_any_moment.

(** Nothing is written to an address on a server *)
Theorem C89_remote (bzip2 sha1 : string -> string) (disk : files -> string -> list nat * bool) (gpg : files -> string -> option string) (u : uri) (text : string) (sha1sum : bool) (compress : option method) (sign : bool) (g : files) :
  is_remote_file u = true -> publish bzip2 sha1 disk gpg u text sha1sum compress sign g = ([], Err EError).
Proof. exact (publish_remote bzip2 sha1 disk gpg u text sha1sum compress sign g). Qed.
Print Assumptions C89_remote.

(** ** A case *)
Definition index_file : uri := mkUri "/srv/pisi-index.xml" "file" "/srv/pisi-index.xml" "pisi-index.xml".
Definition index_page : uri := here "http://a/pisi-index.xml.bz2".
Definition shown (g : files) (s : string) : option string := if py_startswith s "http://a/" then g !! ("/srv/" ++ py_drop 9 s) else None.
Definition zip (t : string) : string := "BZ" ++ t.
Definition unzip (s : string) : option string := if py_startswith s "BZ" then Some (py_drop 2 s) else None.
Definition hash (s : string) : string := if String.eqb s "BZnew" then "1" else if String.eqb s "BZold" then "2" else "0".
Definition by_two (_ : files) (_ : string) : list nat * bool := ([2]%nat, true).
Definition no_gpg (_ : files) (_ : string) : option string := None.
Definition issue (t : string) : prog files unit := publish zip hash by_two no_gpg index_file t true (Some Bz2) false.
Definition visit (g : files) : prog files string :=
  download (shown g) steady here two_mirrors false (fun _ => true) (fun _ => true) hash unzip 2 index_page "/tmp" true (Some Auto) false.

Lemma visits_index g : visits (shown g) here g index_file index_page true "/tmp" ∅.
Proof. split; try split; reflexivity. Qed.
Lemma hash_tells : telling zip hash true ["new"; "old"].
Proof.
  split.
  - intros a b. unfold hash. destruct (String.eqb a "BZnew"), (String.eqb a "BZold"), (String.eqb b "BZnew"), (String.eqb b "BZold"); reflexivity.
  - intros t b t' I _ _ E. unfold hash in E. destruct (String.eqb_spec b "BZnew") as [E1|E1]; [|destruct (String.eqb_spec b "BZold") as [E2|E2]]; subst;
      destruct I as [<-|[<-|[]]]; vm_compute in E; try discriminate E; reflexivity.
Qed.
(** After the first text, in the middle of the second, and after it *)
Example C89_nontrivial :
  let g1 := final (issue "old") ∅ in let between := nth 5 (states (issue "new") g1) ∅ in let g2 := final (issue "new") g1 in
  (forall t, unzip (zip t) = Some t) /\ unpacks (Some Auto) true (destination index_page "/tmp") /\
  result (issue "old") ∅ = Ok tt /\ publishings zip hash index_file ∅ ["new"; "old"] between /\
  result (visit g1) ∅ = Ok "/tmp/pisi-index.xml" /\ final (visit g1) ∅ !! "/tmp/pisi-index.xml" = Some "old" /\
  between !! "/srv/pisi-index.xml.bz2" = Some "BZ" /\ result (visit between) ∅ = Err EError /\
  result (visit g2) ∅ = Ok "/tmp/pisi-index.xml" /\ final (visit g2) ∅ !! "/tmp/pisi-index.xml" = Some "new".
Proof.
  cbv zeta. split; [intros t; unfold unzip, zip; cbn; now destruct t|]. split; [right; split; [reflexivity|exists "/tmp/pisi-index.xml"; reflexivity]|]. split; [vm_compute; reflexivity|]. split.
  { eapply published_more; [eapply published_more; [apply published_none|]; apply TraceFacts.final_state|]. apply nth_In. vm_compute. repeat constructor. }
  split; [vm_compute; reflexivity|]. split; [vm_compute; reflexivity|]. split; [vm_compute; reflexivity|]. split; [vm_compute; reflexivity|]. split; vm_compute; reflexivity.
Qed.
