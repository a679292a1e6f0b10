(** * C75: addresses and mirrors *)
From Coq Require Import String Ascii ZArith List Bool.
From stdpp Require Import gmap strings.
From Verif Require Import Model.Py Model.Path Model.Search Model.Trace Model.Fetch Model.Uri Spec.PathSpec Spec.FetchSpec Spec.UriSpec Proof.UriFacts.
Import ListNotations.
Open Scope string_scope.

(** An address s://h/p on a server is never taken for a local file unless it says so; its scheme
    is the one given (in small letters), its path the one given, and the file name is what follows
    the last slash of the path. *)
Theorem C75_remote_partial (s h p n : string) :
  scheme_text s -> host_text h -> path_text p -> last_name p n ->
  exists u, parse_uri (s ++ "://" ++ h ++ p) = Ok (u, h) /\
    u_uri u = s ++ "://" ++ h ++ p /\ u_scheme u = py_lower s /\ u_path u = p /\ u_filename u = n /\
    (is_remote_file u = true <-> py_lower s <> "file") /\ (is_mirror u = true <-> s = "mirrors").
Proof. exact (remote_address s h p n). Qed.
Print Assumptions C75_remote_partial.

(** A path on this machine without '?', '#', leading '//' and colons before the first slash is a
    local file, namely that path.  Missing: the others, see below. *)
Theorem C75_local_partial (p n : string) :
  local_text p -> last_name p n ->
  exists u, parse_uri p = Ok (u, "") /\ is_local_file u = true /\ u_path u = p /\ u_filename u = n /\ is_mirror u = false.
Proof. exact (local_address p n). Qed.
Print Assumptions C75_local_partial.

(** The mirrors of a name are those listed for it, in the order of the file, whatever else the file
    holds; without any, there is none. *)
Theorem C75_mirrors (lines : list string) (m : gmap string (list string)) (name : string) (urls : list string) :
  parse_mirrors (Some lines) = Ok m ->
  (get_mirrors m name = Some urls <-> listed name lines urls /\ urls <> []) /\
  (get_mirrors m name = None <-> listed name lines []).
Proof. exact (mirrors_exact lines m name urls). Qed.
Print Assumptions C75_mirrors.
(** A file of mirrors is always read; that there is none is an error. *)
Theorem C75_mirrors_read (lines : option (list string)) :
  match lines with Some l => exists m, parse_mirrors (Some l) = Ok m | None => parse_mirrors lines = Err EError end.
Proof. destruct lines; [eexists|]; reflexivity. Qed.
Print Assumptions C75_mirrors_read.

(** A download from mirrors that succeeds, after any number of attempts that stopped anywhere,
    leaves the file that the mirrors hold, under the file's name. *)
Theorem C75_mirrored_partial (server : string -> option string) (lines : list string) (m : gmap string (list string)) (name path file dir : string)
    (f0 f : files) (c : string) (net : string -> files -> transfer) (authinfo : bool) (dir_writable writable : string -> bool) (fuel : nat) :
  let u := URI ("mirrors://" ++ name ++ "/" ++ path) in
  parse_mirrors (Some lines) = Ok m -> host_text name -> mirror_file path file ->
  (forall line url, In line lines -> says line name url -> mirror_url url) ->
  (forall line url address c', In line lines -> says line name url -> at_mirror url path address -> server address = Some c' -> c' = c) ->
  (forall b, f0 !! (join_path2 dir file ++ ".part") = Some b -> beginning b c) ->
  attempts server URI (mirrors_of m) u dir f0 f ->
  result (fetch server net URI (mirrors_of m) authinfo dir_writable writable fuel u dir) f = Ok tt ->
  final (fetch server net URI (mirrors_of m) authinfo dir_writable writable fuel u dir) f !! join_path2 dir file = Some c.
Proof. intros u Em Hn Hf Hu. exact (mirrored_success server lines m Em name path file Hn Hf dir Hu f0 f c net authinfo dir_writable writable fuel). Qed.
Print Assumptions C75_mirrored_partial.

(** One mirror that has the file and serves it is enough, whatever the others do. *)
Theorem C75_one_is_enough (server : string -> option string) (lines : list string) (m : gmap string (list string)) (name path file dir : string)
    (net : string -> files -> transfer) (dir_writable writable : string -> bool) (fuel : nat) (f : files) (line url address c : string) :
  parse_mirrors (Some lines) = Ok m -> host_text name -> mirror_file path file ->
  (forall line url, In line lines -> says line name url -> mirror_url url) ->
  In line lines -> says line name url -> at_mirror url path address ->
  server address = Some c -> c <> "" -> (forall g, t_complete (net address g) = true) ->
  dir_writable dir = true -> writable (join_path2 dir file) = true ->
  result (fetch server net URI (mirrors_of m) false dir_writable writable (S (S fuel)) (URI ("mirrors://" ++ name ++ "/" ++ path)) dir) f = Ok tt.
Proof. exact (one_mirror server lines m name path file dir net dir_writable writable fuel f line url address c). Qed.
Print Assumptions C75_one_is_enough.

(** A name that is not in the file of mirrors stops pisi with a NameError instead of the message
    that the name is undefined. *)
Theorem C75_undefined_refuted (server : string -> option string) (lines : list string) (m : gmap string (list string)) (name path file dir : string)
    (net : string -> files -> transfer) (authinfo : bool) (dir_writable writable : string -> bool) (fuel : nat) (f : files) :
  parse_mirrors (Some lines) = Ok m -> host_text name -> mirror_file path file ->
  (forall line url, In line lines -> ~ says line name url) -> dir_writable dir = true -> writable (join_path2 dir file) = true ->
  result (fetch server net URI (mirrors_of m) authinfo dir_writable writable (S fuel) (URI ("mirrors://" ++ name ++ "/" ++ path)) dir) f = Err EName.
Proof. exact (no_mirrors server lines m name path file dir net authinfo dir_writable writable fuel f). Qed.
Print Assumptions C75_undefined_refuted.

(** Not every path on this machine is taken for that path: what follows a '#' or '?' is dropped,
    so the file opened is another one; *)
Theorem C75_cut_refuted (a b : string) (c : ascii) :
  local_text a -> c = "#"%char \/ c = "?"%char ->
  exists u, parse_uri (a ++ String c b) = Ok (u, "") /\ is_local_file u = true /\ u_path u = a.
Proof. exact (local_cut a b c). Qed.
Print Assumptions C75_cut_refuted.
(** and a file name with a colon is taken for an address on a server. *)
Theorem C75_colon_refuted (s rest : string) :
  scheme_text s -> py_lower s <> "file" -> rest <> "" -> (forall c, In c (list_ascii_of_string rest) -> is_letter c = true) ->
  exists u, parse_uri (s ++ ":" ++ rest) = Ok (u, "") /\ is_remote_file u = true /\ u_path u = rest.
Proof. exact (local_colon s rest). Qed.
Print Assumptions C75_colon_refuted.
(** A line of the file of mirrors with a remark after the address is ignored. *)
Theorem C75_remark_refuted (m : gmap string (list string)) (name url remark : string) :
  word name -> word url -> word remark ->
  parse_line m (name ++ " " ++ url ++ " " ++ remark) = m.
Proof. exact (remark_ignored m name url remark). Qed.
Print Assumptions C75_remark_refuted.

(** A file of mirrors and what it means *)
Definition mirror_lines : list string :=
  ["# mirrors" ++ String newline ""; String newline ""; "gnu  http://ftp.gnu.org/gnu/" ++ String newline ""; "kde ftp://ftp.kde.org/pub/kde" ++ String newline "";
   "gnu" ++ String "009" "http://mirror.example.org/gnu" ++ String newline ""; "kde ftp://old.kde.org # slow" ++ String newline ""].
Definition gnu_serving (s : string) : option string := if String.eqb s "http://mirror.example.org/gnu/bash/bash-3.1.tar.gz" then Some "bash" else None.
Definition gnu_net (_ : string) (_ : files) : transfer := mkTransfer true true [1; 3]%nat true.
Example C75_nontrivial :
  (exists m, parse_mirrors (Some mirror_lines) = Ok m /\
    get_mirrors m "gnu" = Some ["http://ftp.gnu.org/gnu/"; "http://mirror.example.org/gnu"] /\ get_mirrors m "kde" = Some ["ftp://ftp.kde.org/pub/kde"] /\ get_mirrors m "gnome" = None /\
    (let get := fetch gnu_serving gnu_net URI (mirrors_of m) false (fun _ => true) (fun _ => true) 2 in
     result (get (URI "mirrors://gnu/bash/bash-3.1.tar.gz") "/var/cache") ∅ = Ok tt /\
     final (get (URI "mirrors://gnu/bash/bash-3.1.tar.gz") "/var/cache") ∅ !! "/var/cache/bash-3.1.tar.gz" = Some "bash" /\
     result (get (URI "mirrors://gnome/gtk.tar.gz") "/var/cache") ∅ = Err EName)) /\
  host_text "gnu" /\ mirror_file "bash/bash-3.1.tar.gz" "bash-3.1.tar.gz" /\
  (forall line url, In line mirror_lines -> says line "gnu" url -> mirror_url url) /\
  at_mirror "http://mirror.example.org/gnu" "bash/bash-3.1.tar.gz" "http://mirror.example.org/gnu/bash/bash-3.1.tar.gz".
Proof.
  split; [|split; [|split; [|split]]].
  - eexists. split; [reflexivity|]. repeat split; vm_compute; reflexivity.
  - split; [|split; intros _; apply char_in_not; reflexivity]. intros c I J. cbn in I, J. repeat (destruct I as [<-|I]; [repeat (destruct J as [X|J]; [discriminate X|]); destruct J|]). destruct I.
  - split; [discriminate|]. split; [split; [intros J; cbn in J; repeat (destruct J as [X|J]; [discriminate X|]); destruct J|right; now exists "bash"]|]. split; [intros [r X]; discriminate X|].
    intros c I J. cbn in I, J. repeat (destruct I as [<-|I]; [repeat (destruct J as [X|J]; [discriminate X|]); destruct J|]). destruct I.
  - assert (Hst : scheme_text "http") by (split; [discriminate|intros c I; cbn in I; left; repeat (destruct I as [<-|I]; [reflexivity|]); destruct I]).
    assert (T : forall l s, (forall c, In c l -> char_in c s = false) -> forall c, In c l -> free_of c s) by (intros l s H c I; apply char_in_not; now apply H).
    intros line url I Hs. apply says_words in Hs as [N E]. cbn in I. repeat (destruct I as [<-|I]; [try (vm_compute in E; discriminate E)|]); [..|destruct I]; injection E as <-; subst.
    + exists "http", "ftp.gnu.org", "/gnu/". split; [reflexivity|]. split; [exact Hst|]. do 3 (split; [discriminate|]). split; [split; [|split; intros _; apply char_in_not; reflexivity]|split; [right; now exists "gnu/"|]]; refine (T _ _ _); intros c I; cbn in I; repeat (destruct I as [<-|I]; [reflexivity|]); destruct I.
    + exists "http", "mirror.example.org", "/gnu". split; [reflexivity|]. split; [exact Hst|]. do 3 (split; [discriminate|]). split; [split; [|split; intros _; apply char_in_not; reflexivity]|split; [right; now exists "gnu"|]]; refine (T _ _ _); intros c I; cbn in I; repeat (destruct I as [<-|I]; [reflexivity|]); destruct I.
  - right. split; [|reflexivity]. intros [t E]. apply (f_equal str_rev) in E. rewrite PyFacts.str_rev_app_distr in E. discriminate E.
Qed.
(** Local names *)
Example C75_local_names :
  parse_uri "/var/cache/a-1.0.pisi" = Ok (mkUri "/var/cache/a-1.0.pisi" "file" "/var/cache/a-1.0.pisi" "a-1.0.pisi", "") /\
  parse_uri "HTTP://host:80/d/a.pisi" = Ok (mkUri "HTTP://host:80/d/a.pisi" "http" "/d/a.pisi" "a.pisi", "host:80") /\
  parse_uri "c#-1.0.pisi" = Ok (mkUri "c#-1.0.pisi" "file" "c" "c", "") /\
  parse_uri "foo:bar.pisi" = Ok (mkUri "foo:bar.pisi" "foo" "bar.pisi" "bar.pisi", "") /\
  parse_uri "http://host/a;b.pisi" = Ok (mkUri "http://host/a;b.pisi" "http" "/a" "a", "host") /\
  parse_uri "//srv/a.pisi" = Ok (mkUri "//srv/a.pisi" "file" "/a.pisi" "a.pisi", "srv") /\
  parse_uri "http://[host/a.pisi" = Err EValue.
Proof. repeat split; vm_compute; reflexivity. Qed.
