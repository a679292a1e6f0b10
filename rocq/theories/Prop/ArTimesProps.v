(** * C91: archives of object code are packaged as they were, but for the times in them *)
From Coq Require Import String Ascii ZArith List Bool Lia.
From Verif Require Import Model.Py Model.ArTimes Spec.ArTimesSpec Proof.ArTimesFacts.
Import ListNotations.
Open Scope list_scope.

(** Missing in the general statement, and false of the code: data holding a blank and a backquote. *)
Theorem C91_members_partial ms :
  (forall m, In m ms -> regular m /\ no_mark (m_data m)) ->
  clean_ar_timestamps (archive ms) = archive (map undated ms).
Proof. exact (clean_archive ms). Qed.
Print Assumptions C91_members_partial.

(** Two builds a while apart give the same file, so the same digest. *)
Theorem C91_reproducible_partial ms ms' :
  (forall m, In m ms -> regular m /\ no_mark (m_data m)) ->
  (forall m, In m ms' -> regular m /\ no_mark (m_data m)) ->
  Forall2 (fun m m' => m_name m = m_name m' /\ m_owner m = m_owner m' /\ m_size m = m_size m' /\ m_data m = m_data m' /\
             skipn 10 (m_date m) = skipn 10 (m_date m')) ms ms' ->
  clean_ar_timestamps (archive ms) = clean_ar_timestamps (archive ms').
Proof. exact (clean_same ms ms'). Qed.
Print Assumptions C91_reproducible_partial.

(** And only then. *)
Theorem C91_tells_apart_partial ms ms' :
  (forall m, In m ms -> regular m /\ no_mark (m_data m)) ->
  (forall m, In m ms' -> regular m /\ no_mark (m_data m)) ->
  clean_ar_timestamps (archive ms) = clean_ar_timestamps (archive ms') ->
  Forall2 (fun m m' => length (m_data m) = length (m_data m')) ms ms' ->
  Forall2 (fun m m' => m_name m = m_name m' /\ m_owner m = m_owner m' /\ m_size m = m_size m' /\ m_data m = m_data m' /\
             skipn 10 (m_date m) = skipn 10 (m_date m')) ms ms'.
Proof. exact (clean_apart ms ms'). Qed.
Print Assumptions C91_tells_apart_partial.

Theorem C91_twice_partial ms :
  (forall m, In m ms -> regular m /\ no_mark (m_data m)) ->
  clean_ar_timestamps (clean_ar_timestamps (archive ms)) = clean_ar_timestamps (archive ms).
Proof. exact (clean_twice ms). Qed.
Print Assumptions C91_twice_partial.

(** A file of another kind, called so: not touched. *)
Theorem C91_other s :
  clean_ar_timestamps s <> s ->
  exists w rest, s = w ++ list_ascii_of_string "!<arch>" ++ rest /\ Forall (fun c => In c (list_ascii_of_string whitespace_chars)) w.
Proof. exact (clean_other s). Qed.
Print Assumptions C91_other.

Theorem C91_unmarked s : no_mark s -> clean_ar_timestamps s = s.
Proof. exact (clean_plain s). Qed.
Print Assumptions C91_unmarked.

Theorem C91_size_partial s :
  (forall l a b, In l (readlines s) -> l = a ++ [" "%char; "`"%char] ++ b -> (41 <= length a)%nat) ->
  length (clean_ar_timestamps s) = length s.
Proof. exact (clean_length s). Qed.
Print Assumptions C91_size_partial.

(** ** An archive *)
Definition text := list_ascii_of_string.
Definition object (name date data : string) : member := mkMember (text name) (text date) (text "0     0     100644  ") (text "24        ") (text data).
Definition plain (date date' : string) : list member :=
  [object "/               " date "ABCDEFGHIJKLMNOPQRSTUVWX"; object "a.o/            " date' "some
code, of lines
x "].

Lemma no_mark_test s : (forallb (fun k => negb (at_mark (skipn k s))) (seq 0 (length s))) = true -> no_mark s.
Proof.
  intros H a b ->. rewrite forallb_forall in H. specialize (H (length a)). rewrite in_seq, !app_length in H. cbn [length] in H.
  rewrite skipn_app, skipn_all, Nat.sub_diag in H. cbn in H. discriminate H. lia.
Qed.
Lemma object_regular n d x : length (text n) = 16%nat -> In "/"%char (text n) -> length (text d) = 12%nat -> ~ In newline (text n) -> ~ In newline (text d) -> regular (object n d x).
Proof.
  intros A B C D E. constructor; cbn [object m_name m_date m_owner m_size]; auto.
  - exists (text "24       "). now split.
  - rewrite !in_app_iff. intros [K|[K|K]]; auto. cbn in K. repeat (destruct K as [K|K]; [try discriminate K; try (destruct K as [K|K]; discriminate K)|]); try exact K; try discriminate K; cbn in K; repeat (destruct K as [K|K]; [discriminate K|]); destruct K.
Qed.

Ltac field := cbn; intros K; repeat (destruct K as [K|K]; [discriminate K|]); destruct K.
Lemma plain_good m d d' : In m (plain d d') -> length (text d) = 12%nat -> length (text d') = 12%nat -> ~ In newline (text d) -> ~ In newline (text d') -> regular m /\ no_mark (m_data m).
Proof.
  intros [<-|[<-|[]]] A B C D; (split; [apply object_regular; auto; [cbn; tauto|field]|apply no_mark_test; vm_compute; reflexivity]).
Qed.
Example C91_nontrivial :
  clean_ar_timestamps (archive (plain "1163000000  " "1163000099  ")) = archive (plain "0000000000  " "0000000000  ")
  /\ archive (plain "1163000000  " "1163000099  ") <> archive (plain "0000000000  " "0000000000  ")
  /\ clean_ar_timestamps (archive (plain "1163000000  " "1163000099  ")) = clean_ar_timestamps (archive (plain "0999999999  " "1200000000  ")).
Proof.
  assert (forall d d', length (text d) = 12%nat -> length (text d') = 12%nat -> ~ In newline (text d) -> ~ In newline (text d') -> forall m, In m (plain d d') -> regular m /\ no_mark (m_data m)) as G by (intros; now apply (plain_good m d d')).
  split; [|split].
  - rewrite C91_members_partial; [reflexivity|]. apply G; try reflexivity; field.
  - vm_compute. discriminate.
  - apply C91_reproducible_partial; [apply G; try reflexivity; field|apply G; try reflexivity; field|]. repeat constructor.
Qed.

(** ** What is not so *)
(** A member that is a page of text is changed where it has a quotation with a path before it. *)
Definition page : member := object "a.txt/          " "1163000000  " "as to the files in /usr/share/doc of this system and of others, use the `make' command
".
Theorem C91_data_refuted :
  exists m m', regular m /\ clean_ar_timestamps (archive [m]) = archive [m'] /\ m_data m' <> m_data m.
Proof.
  exists page, (object "a.txt/          " "0000000000  " "as to the files in /usr/share/0000000000s system and of others, use the `make' command
").
  split; [apply object_regular; auto; [cbn; tauto|field|field]|]. split; [vm_compute; reflexivity|vm_compute; discriminate].
Qed.
Print Assumptions C91_data_refuted.
(** The file can lose bytes or gain some. *)
Theorem C91_size_refuted :
  exists m, regular m /\ length (clean_ar_timestamps (archive [m])) <> length (archive [m]).
Proof.
  exists (object "a.txt/          " "1163000000  " "in /etc the `make' rules
"). split; [apply object_regular; auto; [cbn; tauto|field|field]|]. vm_compute. discriminate.
Qed.
Print Assumptions C91_size_refuted.
(** Names written the way of BSD have no slash, and their members keep their times. *)
Theorem C91_reproducible_refuted :
  exists m m', m_name m = m_name m' /\ m_owner m = m_owner m' /\ m_size m = m_size m' /\ m_data m = m_data m' /\
    skipn 10 (m_date m) = skipn 10 (m_date m') /\ length (m_name m) = 16%nat /\ no_mark (m_data m) /\
    clean_ar_timestamps (archive [m]) <> clean_ar_timestamps (archive [m']).
Proof.
  exists (object "a.o             " "1163000000  " "ABCDEFGHIJKLMNOPQRSTUVWX"), (object "a.o             " "1163000001  " "ABCDEFGHIJKLMNOPQRSTUVWX").
  do 6 (split; [reflexivity|]). split; [apply no_mark_test; vm_compute; reflexivity|]. vm_compute. discriminate.
Qed.
Print Assumptions C91_reproducible_refuted.
